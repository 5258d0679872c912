From Verif Require Import Base Lru_model Lru_spec Lru_proofs.
From Coq Require Import ZifyBool ZifyNat ZifyN.
Open Scope nat_scope.

Section Facts.
Variables (K B : Type).
Variable matches : B -> K -> bool.
Variable hash : K -> N.
Variable nilblob : B.
Variable K_eq : forall a b : K, {a = b} + {a <> b}.
Notation entry := (K * B)%type.
Notation hstep := (hstep K B hash K_eq).
Notation hrun := (hrun K B hash K_eq).
Notation drop := (drop K B K_eq).
Notation lookup := (lookup K B K_eq).
Notation cut := (cut K B).
Notation op_good := (op_good K B matches).

(** *** No collisions: the plain specification *)
Definition inj_on (l : list K) : Prop := forall a b, In a l -> In b l -> hash a = hash b -> a = b.

Lemma hdrop_is_drop k (s : list entry) :
  (forall e, In e s -> hash k = hash (fst e) -> k = fst e) -> hdrop K B hash (hash k) s = drop k s.
Proof.
  intros H. unfold hdrop, Lru_spec.drop. apply filter_ext_in. intros e He. f_equal.
  destruct (N.eqb_spec (hash k) (hash (fst e))) as [E|E].
  - symmetry. apply keqb_true. auto.
  - destruct (keqb K K_eq k (fst e)) eqn:E'; [|reflexivity]. apply keqb_true in E'. congruence.
Qed.

Definition within (l : list K) (s : list entry) : Prop := forall e, In e s -> In (fst e) l.

Lemma firstn_in {X} n (l : list X) x : In x (firstn n l) -> In x l.
Proof. intros H. rewrite <- (firstn_skipn n l). apply in_or_app. left. exact H. Qed.

Lemma cut_in cap (s : list entry) e : In e (cut cap s) -> In e s.
Proof. unfold Lru_spec.cut. destruct (cap <=? 0)%Z; [auto|apply firstn_in]. Qed.

Lemma spec_step_within cap l s o :
  within l s -> incl (op_key K B o) l -> within l (fst (spec_step K B K_eq cap s o)).
Proof.
  intros W I e He. destruct o as [k b|k|k|f|]; cbn [spec_step fst op_key] in *.
  - apply cut_in in He. destruct He as [<-|He]; [apply I; left; reflexivity|]. unfold Lru_spec.drop in He. apply filter_In in He. apply W, He.
  - destruct (lookup k s); [|apply W, He]. cbn [fst] in He. destruct He as [<-|He]; [apply I; left; reflexivity|]. unfold Lru_spec.drop in He. apply filter_In in He. apply W, He.
  - unfold Lru_spec.drop in He. apply filter_In in He. apply W, He.
  - apply filter_In in He. apply W, He.
  - destruct He.
Qed.

Lemma spec_run_hrun cap l : forall ops s,
  inj_on l -> within l s -> incl (keys_of K B ops) l ->
  hrun cap s ops = spec_run K B K_eq cap s ops.
Proof.
  induction ops as [|o ops IH]; intros s I W Hl; [reflexivity|].
  cbn [Lru_proofs.hrun spec_run].
  assert (E : hstep cap s o = spec_step K B K_eq cap s o).
  { destruct o as [k b|k|k|f|]; try reflexivity. cbn [Lru_proofs.hstep spec_step].
    rewrite hdrop_is_drop; [reflexivity|]. intros e He. apply I; [apply Hl; left; reflexivity|apply W, He]. }
  rewrite E.
  assert (W' : within l (fst (spec_step K B K_eq cap s o))).
  { apply spec_step_within; [exact W|]. intros x Hx. apply Hl. unfold keys_of. cbn [flat_map]. apply in_or_app. left. exact Hx. }
  destruct (spec_step K B K_eq cap s o) as [s' out]. cbn [fst snd] in *.
  rewrite (IH s' I W') by (intros x Hx; apply Hl; unfold keys_of; cbn [flat_map]; apply in_or_app; right; exact Hx).
  destruct (spec_run K B K_eq cap s' ops). reflexivity.
Qed.

Lemma new_bounded cap : bounded K B (newLRUCache B nilblob cap) [].
Proof. unfold bounded. cbn. lia. Qed.

Lemma run_refines cap ops :
  Forall op_good ops -> inj_on (keys_of K B ops) ->
  exists c, run K B matches hash (newLRUCache B nilblob cap) ops = Some (c, snd (spec_run K B K_eq cap [] ops)).
Proof.
  intros G I.
  destruct (run_rep K B matches hash K_eq ops _ _ (new_rep K B matches hash nilblob cap) (new_bounded cap) G) as (c & E & _).
  exists c. rewrite E. cbn [newLRUCache maxItems]. rewrite (spec_run_hrun cap (keys_of K B ops)); auto using incl_refl.
  intros e [].
Qed.

(** *** Arbitrary hash: bounded, and a hit is the current value *)
Lemma hrun_app cap ops1 : forall s ops2,
  hrun cap s (ops1 ++ ops2) =
  (fst (hrun cap (fst (hrun cap s ops1)) ops2), snd (hrun cap s ops1) ++ snd (hrun cap (fst (hrun cap s ops1)) ops2)).
Proof.
  induction ops1 as [|o ops1 IH]; intros s ops2; cbn [app Lru_proofs.hrun fst snd].
  - destruct (hrun cap s ops2); reflexivity.
  - rewrite IH. reflexivity.
Qed.

Definition sound (k : K) (cur : option B) (s : list entry) : Prop := forall b, In (k, b) s -> cur = Some b.

Lemma NoDup_firstn {X} n (l : list X) : NoDup l -> NoDup (firstn n l).
Proof.
  revert l. induction n as [|n IH]; intros [|a l] H; cbn [firstn]; try constructor; inversion H; subst.
  - intros Hx. apply firstn_in in Hx. contradiction.
  - auto.
Qed.
Lemma NoDup_map_filter {X Y} (g : X -> Y) f (l : list X) : NoDup (map g l) -> NoDup (map g (filter f l)).
Proof.
  induction l as [|a l IH]; cbn [map filter]; [auto|]. intros H; inversion H; subst.
  destruct (f a); cbn [map]; [constructor|]; auto. intros Hx. apply in_map_iff in Hx. destruct Hx as (y & E & Hy).
  apply filter_In in Hy. apply H2. rewrite <- E. apply in_map, Hy.
Qed.

Lemma hstep_nodup cap s o :
  NoDup (map (fun e => hash (fst e)) s) -> NoDup (map (fun e => hash (fst e)) (fst (hstep cap s o))).
Proof.
  intros ND. destruct o as [k b|k|k|f|]; cbn [Lru_proofs.hstep fst].
  - unfold Lru_spec.cut. assert (NoDup (map (fun e : entry => hash (fst e)) ((k, b) :: hdrop K B hash (hash k) s))).
    { cbn [map]. constructor; [|apply NoDup_map_filter; exact ND]. intros Hx. apply in_map_iff in Hx.
      destruct Hx as (e & E & He). apply filter_In in He. rewrite E in He. cbn [fst] in He. rewrite N.eqb_refl in He. destruct He; discriminate. }
    destruct (cap <=? 0)%Z; [exact H|]. rewrite <- firstn_map. apply NoDup_firstn. exact H.
  - destruct (lookup k s) as [b|] eqn:L; [|exact ND]. cbn [fst]. apply lookup_in in L. apply in_split in L. destruct L as (s1 & s2 & ->).
    rewrite (drop_split K B hash K_eq k s1 (k, b) s2 ND eq_refl).
    eapply Permutation_NoDup; [|exact ND]. apply Permutation_map. symmetry. apply Permutation_middle.
  - apply NoDup_map_filter, ND.
  - apply NoDup_map_filter, ND.
  - constructor.
Qed.

Lemma current_app ops1 : forall acc k ops2,
  current K B K_eq acc k (ops1 ++ ops2) = current K B K_eq (current K B K_eq acc k ops1) k ops2.
Proof. induction ops1 as [|o ops1 IH]; intros; [reflexivity|]. destruct o; cbn [app current]; apply IH. Qed.

Lemma hrun_sound cap k ops : forall s acc,
  NoDup (map (fun e => hash (fst e)) s) ->
  sound k acc s -> sound k (current K B K_eq acc k ops) (fst (hrun cap s ops)).
Proof.
  induction ops as [|o ops IH]; intros s acc ND H; [exact H|]. cbn [Lru_proofs.hrun fst].
  destruct o as [k' b'|k'|k'|f|]; cbn [current]; apply IH; auto using hstep_nodup;
   try (apply (hstep_nodup cap s (Add K B k' b') ND)); try (apply (hstep_nodup cap s (Get K B k') ND));
   try (apply (hstep_nodup cap s (Del K B k') ND)); try (apply (hstep_nodup cap s (DelFunc K B f) ND));
   try (apply (hstep_nodup cap s (Reset K B) ND));
   intros b Hb; cbn [Lru_proofs.hstep fst] in Hb.
  - apply cut_in in Hb. destruct Hb as [E|Hb].
    + inversion E; subst. destruct (K_eq k k); congruence.
    + apply filter_In in Hb. destruct Hb as [Hb Hn]. destruct (K_eq k k') as [->|]; [|auto].
      cbn [fst] in Hn. rewrite N.eqb_refl in Hn. discriminate.
  - destruct (lookup k' s) as [b0|] eqn:L; [|auto]. cbn [fst] in Hb. destruct Hb as [E|Hb].
    + inversion E; subst. apply H. eapply lookup_in; exact L.
    + apply filter_In in Hb. apply H, Hb.
  - apply filter_In in Hb. destruct Hb as [Hb Hn]. destruct (K_eq k k') as [->|]; [|auto].
    cbn [fst] in Hn. rewrite keqb_refl in Hn. discriminate.
  - apply filter_In in Hb. destruct Hb as [Hb Hn]. rewrite (H b Hb). cbn [snd] in Hn. destruct (f b); [discriminate|reflexivity].
  - destruct Hb.
Qed.

Lemma run_sound cap ops k :
  Forall op_good ops ->
  exists c outs r n, run K B matches hash (newLRUCache B nilblob cap) (ops ++ [Get K B k]) = Some (c, outs ++ [(r, n)]) /\
    length outs = length ops /\
    (forall b, r = Some b -> current K B K_eq None k ops = Some b) /\
    ((0 < cap)%Z -> Forall (fun o => (Z.of_nat (snd o) <= cap)%Z) (outs ++ [(r, n)])).
Proof.
  intros G.
  assert (G' : Forall op_good (ops ++ [Get K B k])) by (apply Forall_app; split; [exact G|repeat constructor]).
  destruct (run_rep K B matches hash K_eq _ _ _ (new_rep K B matches hash nilblob cap) (new_bounded cap) G') as (c & E & R & _).
  cbn [newLRUCache maxItems] in E. rewrite E. exists c.
  rewrite hrun_app. cbn [fst snd Lru_proofs.hrun].
  eexists _, _, _. split; [reflexivity|].
  assert (Hlen : forall o s, length (snd (hrun cap s o)) = length o).
  { induction o as [|x o IH]; intros s; cbn [Lru_proofs.hrun snd length]; [reflexivity|]. f_equal. apply IH. }
  split; [apply Hlen|]. split.
  - intros b Hb. cbn [Lru_proofs.hstep] in Hb.
    destruct (lookup k (fst (hrun cap [] ops))) as [b'|] eqn:L; [|discriminate]. cbn [snd] in Hb. inversion Hb; subst.
    apply (hrun_sound cap k ops [] None (NoDup_nil _)); [intros x []|]. eapply lookup_in; exact L.
  - intros Hc.
    assert (Hall : forall o s, NoDup (map (fun e => hash (fst e)) s) -> (Z.of_nat (length s) <= cap)%Z ->
              Forall (fun o => (Z.of_nat (snd o) <= cap)%Z) (snd (hrun cap s o))).
    { induction o as [|x o IH]; intros s ND Hs; cbn [Lru_proofs.hrun snd]; constructor.
      - cbn [snd]. destruct (hstep_bounded K B matches hash K_eq cap s x ND (or_intror Hs)); lia.
      - apply IH; [apply hstep_nodup, ND|]. destruct (hstep_bounded K B matches hash K_eq cap s x ND (or_intror Hs)); lia. }
    specialize (Hall (ops ++ [Get K B k]) [] (NoDup_nil _)). rewrite hrun_app in Hall. cbn [fst snd Lru_proofs.hrun] in Hall.
    apply Hall. cbn. lia.
Qed.

(** *** Entries used more recently than capacity-many others survive *)
Lemma keys_nodup (s : list entry) : NoDup (map (fun e => hash (fst e)) s) -> NoDup (map fst s).
Proof.
  induction s as [|e s IH]; cbn [map]; intros H; constructor; inversion H; subst; auto.
  intros Hx. apply in_map_iff in Hx. destruct Hx as (e' & E & He). apply H2. rewrite <- E.
  apply (in_map (fun e => hash (fst e))). exact He.
Qed.

End Facts.

Section Survive.
Variables (K B : Type).
Variable K_eq : forall a b : K, {a = b} + {a <> b}.
Notation entry := (K * B)%type.
Notation drop := (drop K B K_eq).
Notation lookup := (lookup K B K_eq).
Notation cut := (cut K B).

Definition ahead (k : K) (b : B) (T : list K) (s : list entry) : Prop :=
  exists s1 s2, s = s1 ++ (k, b) :: s2 /\ incl (map fst s1) T /\ NoDup (map fst s).

Lemma drop_app k s1 s2 : drop k (s1 ++ s2) = drop k s1 ++ drop k s2.
Proof. apply filter_app. Qed.
Lemma drop_incl k s : incl (drop k s) s.
Proof. intros x Hx. apply filter_In in Hx. apply Hx. Qed.
Lemma drop_keys k s x : In x (map fst (drop k s)) -> In x (map fst s) /\ x <> k.
Proof.
  intros H. apply in_map_iff in H. destruct H as (e & <- & He). apply filter_In in He. destruct He as [He Hn].
  split; [apply in_map, He|]. intros E. rewrite <- E in Hn. rewrite keqb_refl in Hn. discriminate.
Qed.
Lemma drop_other k k' b s : k <> k' -> drop k ((k', b) :: s) = (k', b) :: drop k s.
Proof.
  intros H. unfold Lru_spec.drop. cbn [filter fst]. destruct (keqb K K_eq k k') eqn:E; [|reflexivity].
  apply keqb_true in E. contradiction.
Qed.

Lemma nodup_drop_cons k b s : NoDup (map fst s) -> NoDup (map fst ((k, b) :: drop k s)).
Proof.
  intros H. cbn [map fst]. constructor; [intros Hx; apply drop_keys in Hx; tauto|].
  apply NoDup_map_filter. exact H.
Qed.

Lemma cut_keep cap (s1 s2 : list entry) e :
  ((cap <= 0)%Z \/ (Z.of_nat (length s1) < cap)%Z) ->
  exists s2', cut cap (s1 ++ e :: s2) = s1 ++ e :: s2' .
Proof.
  unfold Lru_spec.cut. intros H. destruct (Z.leb_spec cap 0); [eauto|].
  rewrite firstn_app. rewrite firstn_all2 by lia.
  destruct (Z.to_nat cap - length s1) eqn:E; [lia|]. cbn [firstn]. eauto.
Qed.

Lemma ahead_step cap k b T s o :
  ((cap <= 0)%Z \/ (Z.of_nat (length T) < cap)%Z) ->
  (forall x, In x (uses K B o) -> x <> k -> In x T) ->
  keeps K B k b o ->
  ahead k b T s -> ahead k b T (fst (spec_step K B K_eq cap s o)).
Proof.
  intros Hc Hu Hk (s1 & s2 & -> & Hi & ND).
  assert (Hk1 : ~ In k (map fst s1)).
  { rewrite map_app in ND. cbn [map fst] in ND. apply NoDup_remove_2 in ND. intros Hx. apply ND, in_or_app. left. exact Hx. }
  assert (Hcutnd : forall s : list entry, NoDup (map fst s) -> NoDup (map fst (cut cap s))).
  { intros s H. unfold Lru_spec.cut. destruct (cap <=? 0)%Z; [exact H|]. rewrite <- firstn_map. apply NoDup_firstn, H. }
  destruct o as [k' b'|k'|k'|f|]; cbn [spec_step fst uses keeps] in *.
  - assert (NDn : NoDup (map fst ((k', b') :: drop k' (s1 ++ (k, b) :: s2)))) by (apply nodup_drop_cons, ND).
    rewrite drop_app, (drop_other k' k b s2 Hk) in *.
    destruct (cut_keep cap ((k', b') :: drop k' s1) (drop k' s2) (k, b)) as (s2' & E).
    + destruct Hc as [Hc|Hc]; [left; exact Hc|right].
      assert (length ((k', b') :: drop k' s1) <= length T); [|lia].
      rewrite <- (map_length fst). apply NoDup_incl_length.
      * apply nodup_drop_cons. rewrite map_app in ND.
        clear - ND. induction s1 as [|x s1 IH]; cbn [map app] in *; [constructor|]. inversion ND; subst.
        constructor; [intros Hx; apply H1, in_or_app; left; exact Hx|auto].
      * intros x [<-|Hx]; [apply Hu; [left; reflexivity|exact Hk]|].
        apply drop_keys in Hx. apply Hi, Hx.
    + cbn [app] in E. exists ((k', b') :: drop k' s1), s2'. cbn [app] in *. rewrite <- E. split; [reflexivity|]. split.
      * intros x [<-|Hx]; [apply Hu; [left; reflexivity|exact Hk]|]. apply drop_keys in Hx. apply Hi, Hx.
      * apply Hcutnd, NDn.
  - destruct (lookup k' (s1 ++ (k, b) :: s2)) as [b0|] eqn:L; cbn [fst].
    + apply lookup_in in L. destruct (K_eq k' k) as [->|Hne].
      * assert (b0 = b) as ->.
        { apply in_app_or in L. destruct L as [L|[L|L]].
          - exfalso. apply Hk1. apply (in_map fst) in L. exact L.
          - congruence.
          - exfalso. rewrite map_app in ND. cbn [map fst] in ND. apply NoDup_remove_2 in ND. apply ND, in_or_app. right.
            apply (in_map fst) in L. exact L. }
        exists [], (drop k (s1 ++ (k, b) :: s2)). split; [reflexivity|]. split; [intros x []|apply nodup_drop_cons, ND].
      * assert (NDn : NoDup (map fst ((k', b0) :: drop k' (s1 ++ (k, b) :: s2)))) by (apply nodup_drop_cons, ND).
        rewrite drop_app, (drop_other k' k b s2 Hne) in *.
        exists ((k', b0) :: drop k' s1), (drop k' s2). split; [reflexivity|]. split; [|exact NDn].
        intros x [<-|Hx]; [apply Hu; [left; reflexivity|exact Hne]|]. apply drop_keys in Hx. apply Hi, Hx.
    + exists s1, s2. auto.
  - assert (NDn : NoDup (map fst (drop k' (s1 ++ (k, b) :: s2)))) by (apply NoDup_map_filter, ND).
    rewrite drop_app, (drop_other k' k b s2 Hk) in *.
    exists (drop k' s1), (drop k' s2). split; [reflexivity|]. split; [|exact NDn].
    intros x Hx. apply drop_keys in Hx. apply Hi, Hx.
  - exists (filter (fun e => negb (f (snd e))) s1), (filter (fun e => negb (f (snd e))) s2).
    split; [rewrite filter_app; cbn [filter snd]; rewrite Hk; reflexivity|]. split; [|apply NoDup_map_filter, ND].
    intros x Hx. apply in_map_iff in Hx. destruct Hx as (e & <- & He). apply filter_In in He. apply Hi, in_map, He.
  - destruct Hk.
Qed.

Lemma ahead_lookup k b T s : ahead k b T s -> lookup k s = Some b.
Proof.
  intros (s1 & s2 & -> & _ & ND). change b with (snd (k, b)). apply lookup_split; [|reflexivity].
  intros e He E. rewrite map_app in ND. cbn [map fst] in ND. apply NoDup_remove_2 in ND. apply ND, in_or_app. left.
  rewrite <- E. apply in_map, He.
Qed.

Fixpoint srun (cap : Z) (s : list entry) (l : list (op K B)) : list entry :=
  match l with [] => s | o :: l' => srun cap (fst (spec_step K B K_eq cap s o)) l' end.

Lemma spec_run_fst cap l : forall s, fst (spec_run K B K_eq cap s l) = srun cap s l.
Proof.
  induction l as [|o l IH]; intros s; cbn [spec_run srun]; [reflexivity|].
  destruct (spec_step K B K_eq cap s o) as [s' out]. cbn [fst]. specialize (IH s').
  destruct (spec_run K B K_eq cap s' l). exact IH.
Qed.

Lemma spec_run_app cap l1 : forall s l2,
  spec_run K B K_eq cap s (l1 ++ l2) =
  (fst (spec_run K B K_eq cap (srun cap s l1) l2),
   snd (spec_run K B K_eq cap s l1) ++ snd (spec_run K B K_eq cap (srun cap s l1) l2)).
Proof.
  induction l1 as [|o l1 IH]; intros s l2; cbn [app spec_run srun fst snd].
  - destruct (spec_run K B K_eq cap s l2); reflexivity.
  - destruct (spec_step K B K_eq cap s o) as [s' out]. cbn [fst]. rewrite (IH s' l2).
    pose proof (spec_run_fst cap l1 s').
    destruct (spec_run K B K_eq cap s' l1) as [s'' outs]. cbn [fst snd] in *.
    destruct (spec_run K B K_eq cap (srun cap s' l1) l2). reflexivity.
Qed.

Lemma srun_nodup cap l : forall s, NoDup (map fst s) -> NoDup (map fst (srun cap s l)).
Proof.
  induction l as [|o l IH]; intros s ND; cbn [srun]; [exact ND|]. apply IH.
  destruct o as [k' b'|k'|k'|f|]; cbn [spec_step fst].
  - unfold Lru_spec.cut. pose proof (nodup_drop_cons k' b' s ND). destruct (cap <=? 0)%Z; [exact H|]. rewrite <- firstn_map. apply NoDup_firstn, H.
  - destruct (lookup k' s); [cbn [fst]; apply nodup_drop_cons, ND|exact ND].
  - apply NoDup_map_filter, ND.
  - apply NoDup_map_filter, ND.
  - constructor.
Qed.

Lemma ahead_srun cap k b T l : forall s,
  ((cap <= 0)%Z \/ (Z.of_nat (length T) < cap)%Z) ->
  (forall x, In x (flat_map (uses K B) l) -> x <> k -> In x T) ->
  Forall (keeps K B k b) l ->
  ahead k b T s -> ahead k b T (srun cap s l).
Proof.
  induction l as [|o l IH]; intros s Hc Hu Hk A; cbn [srun]; [exact A|]. inversion Hk; subst.
  cbn [flat_map] in Hu. apply IH; auto.
  - intros x Hx. apply Hu, in_or_app. right. exact Hx.
  - apply ahead_step; auto. intros x Hx. apply Hu, in_or_app. left. exact Hx.
Qed.

(** The keys other than [k] used in [mid], without repetition. *)
Definition others (k : K) (mid : list (op K B)) : list K :=
  nodup K_eq (filter (fun x => negb (keqb K K_eq k x)) (flat_map (uses K B) mid)).

Lemma spec_survives cap pre u mid k b :
  (u = Add K B k b \/ (u = Get K B k /\ snd (spec_step K B K_eq cap (fst (spec_run K B K_eq cap [] pre)) u) = Some b)) ->
  Forall (keeps K B k b) mid ->
  ((cap <= 0)%Z \/ (Z.of_nat (length (others k mid)) < cap)%Z) ->
  exists outs n, snd (spec_run K B K_eq cap [] (pre ++ u :: mid ++ [Get K B k])) = outs ++ [(Some b, n)].
Proof.
  intros Hu Hk Hc. rewrite spec_run_fst in Hu. rewrite spec_run_app. cbn [snd].
  change (u :: mid ++ [Get K B k]) with ([u] ++ mid ++ [Get K B k]). rewrite spec_run_app. cbn [snd].
  rewrite spec_run_app. cbn [snd].
  set (s0 := srun cap [] pre) in *.
  assert (ND0 : NoDup (map fst s0)) by (apply srun_nodup; constructor).
  assert (A1 : ahead k b (others k mid) (srun cap s0 [u])).
  { cbn [srun]. destruct Hu as [->|[-> Hg]].
    - cbn [spec_step fst]. destruct (cut_keep cap [] (drop k s0) (k, b)) as (s2 & E); [cbn; lia|].
      cbn [app] in E. rewrite E. exists [], s2. split; [reflexivity|]. split; [intros x []|].
      rewrite <- E. unfold Lru_spec.cut. pose proof (nodup_drop_cons k b s0 ND0). destruct (cap <=? 0)%Z; [exact H|]. rewrite <- firstn_map. apply NoDup_firstn, H.
    - cbn [spec_step] in *. destruct (lookup k s0) as [b'|] eqn:L; [|discriminate]. cbn [fst snd] in *. inversion Hg; subst.
      exists [], (drop k s0). split; [reflexivity|]. split; [intros x []|apply nodup_drop_cons, ND0]. }
  assert (A2 : ahead k b (others k mid) (srun cap (srun cap s0 [u]) mid)).
  { apply ahead_srun; auto. intros x Hx Hne. unfold others. apply nodup_In, filter_In. split; [exact Hx|].
    destruct (keqb K K_eq k x) eqn:E; [|reflexivity]. apply keqb_true in E. congruence. }
  cbn [spec_run]. cbn [spec_step]. rewrite (ahead_lookup _ _ _ _ A2). cbn [snd].
  eexists _, _. rewrite !app_assoc. reflexivity.
Qed.
End Survive.

Section Reload.
Variables (K B : Type).
Variable matches : B -> K -> bool.
Variable nilblob : B.
Variable K_eq : forall a b : K, {a = b} + {a <> b}.
Notation entry := (K * B)%type.

Lemma load_rep hash cap (s : list entry) :
  (forall a b, In a (map fst s) -> In b (map fst s) -> hash a = hash b -> a = b) ->
  NoDup (map fst s) -> ((cap <= 0)%Z \/ (Z.of_nat (length s) <= cap)%Z) ->
  (forall k b, In (k, b) s -> good K B matches k b) ->
  forall s1 s2 c, s = s2 ++ s1 -> Rep K B matches hash c s1 -> maxItems _ c = cap ->
  exists c', load K B matches hash c (rev s2) = Some c' /\ Rep K B matches hash c' s /\ maxItems _ c' = cap.
Proof.
  intros I ND Hc G s1 s2 c Es R Em. remember (rev s2) as r. revert s1 s2 c Es R Em Heqr.
  induction r as [|[k b] r IH]; intros s1 s2 c Es R Em Heqr.
  - assert (s2 = []) by (rewrite <- (rev_involutive s2), <- Heqr; reflexivity). subst. cbn [load]. eauto.
  - assert (E2 : s2 = rev r ++ [(k, b)]) by (rewrite <- (rev_involutive s2), <- Heqr; reflexivity).
    cbn [load]. subst s2. rewrite <- app_assoc in Es. cbn [app] in Es.
    assert (Hb : bounded K B c s1).
    { unfold bounded. rewrite Em. rewrite Es in Hc. rewrite app_length in Hc. cbn [length] in Hc. lia. }
    assert (Gk : good K B matches k b) by (apply G; rewrite Es; apply in_or_app; right; left; reflexivity).
    destruct (addKey_rep K B matches hash K_eq c s1 k b R Hb Gk) as (c1 & E1 & R1 & Em1). rewrite E1.
    assert (Hd : hdrop K B hash (hash k) s1 = s1).
    { apply hdrop_none. intros e He Eh.
      assert (fst e = k).
      { apply I; [| |exact Eh]; apply in_map_iff.
        - exists e. split; [reflexivity|]. rewrite Es. apply in_or_app. right. right. exact He.
        - exists (k, b). split; [reflexivity|]. rewrite Es. apply in_or_app. right. left. reflexivity. }
      rewrite Es, map_app in ND. cbn [map fst] in ND. apply NoDup_remove_2 in ND. apply ND, in_or_app. right.
      rewrite <- H. apply in_map, He. }
    rewrite Hd in R1. rewrite cut_noop in R1.
    2:{ rewrite Em. rewrite Es in Hc. rewrite app_length in Hc. cbn [length] in *. lia. }
    apply (IH ((k, b) :: s1) (rev r) c1); auto.
    + congruence.
    + rewrite rev_involutive. reflexivity.
Qed.

(** Two instances holding the same entries behave alike, whatever their hashes, as long as
    the hashes do not collide. *)
Lemma rep_same_outputs h1 h2 c1 c2 (s : list entry) ops :
  Rep K B matches h1 c1 s -> Rep K B matches h2 c2 s -> maxItems _ c1 = maxItems _ c2 -> bounded K B c1 s ->
  Forall (op_good K B matches) ops ->
  inj_on K h1 (map fst s ++ keys_of K B ops) -> inj_on K h2 (map fst s ++ keys_of K B ops) ->
  exists c1' c2' outs, run K B matches h1 c1 ops = Some (c1', outs) /\ run K B matches h2 c2 ops = Some (c2', outs).
Proof.
  intros R1 R2 Em Hb G I1 I2.
  destruct (run_rep K B matches h1 K_eq ops _ _ R1 Hb G) as (d1 & E1 & _).
  assert (Hb2 : bounded K B c2 s) by (unfold bounded in *; rewrite <- Em; exact Hb).
  destruct (run_rep K B matches h2 K_eq ops _ _ R2 Hb2 G) as (d2 & E2 & _).
  rewrite E1, E2, Em.
  assert (W : within K B (map fst s ++ keys_of K B ops) s) by (intros e He; apply in_or_app; left; apply in_map, He).
  rewrite (spec_run_hrun K B h1 K_eq _ _ ops s I1 W) by (intros x Hx; apply in_or_app; right; exact Hx).
  rewrite (spec_run_hrun K B h2 K_eq _ _ ops s I2 W) by (intros x Hx; apply in_or_app; right; exact Hx).
  eauto.
Qed.
End Reload.
