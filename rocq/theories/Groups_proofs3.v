From Verif Require Import Base Bytes Dns Groups_model Groups_spec Groups_proofs Groups_proofs2.
From Coq Require Import Lia Permutation Arith.
Open Scope nat_scope.

Lemma always_good_prefix good g l1 l2 : always_good good g (l1 ++ l2) -> always_good good g l1.
Proof.
  intros H a t r b E Hs. apply (H a t r (b ++ l2)); [|exact Hs]. rewrite E, <- app_assoc. reflexivity.
Qed.

Lemma always_good_last good g l t r : always_good good g (l ++ [Reply t r]) -> last_sent t l None = Some g -> good r = true.
Proof. intros H Hs. apply (H l t r []); [reflexivity|exact Hs]. Qed.

Section Dist.
Variable n g : nat.
Hypothesis Hg : g < n.
Variable good : result -> bool.

(** How many resolvers have to fail until g is the active one. *)
Definition dist (p : nat) : nat := if p <=? g then g - p else g + n - p.

Lemma dist_lt p : p < n -> dist p < n.
Proof. unfold dist. destruct (Nat.leb_spec p g); lia. Qed.
Lemma dist_next p : p < n -> p <> g -> dist ((p + 1) mod n) + 1 = dist p.
Proof.
  intros Hp Hne. rewrite succ_mod by exact Hp. unfold dist.
  destruct (Nat.eqb_spec (p + 1) n); destruct (Nat.leb_spec p g).
  - lia.
  - destruct (Nat.leb_spec 0 g); lia.
  - destruct (Nat.leb_spec (p + 1) g); lia.
  - destruct (Nat.leb_spec (p + 1) g); lia.
Qed.
Lemma dist_inj p q : p < n -> q < n -> dist p = dist q -> p = q.
Proof. unfold dist. destruct (Nat.leb_spec p g), (Nat.leb_spec q g); lia. Qed.

Definition near (active : nat) (p : pc) : Prop :=
  match p with
  | Idle => False
  | Ready i _ => i + dist active < n
  | Waiting i idx | Bad i idx _ => idx < n /\ i + dist idx < n /\ dist active <= dist idx
  | Signalling i _ => i + 1 + dist active < n
  | Returned r => good r = true
  end.

Lemma near_head a i r : i + dist a < n -> near a (head n i r).
Proof. intros H. unfold head. destruct (Nat.ltb_spec i n); [exact H|lia]. Qed.
Lemma near_sent a i r : a < n -> near a (Ready i r) -> near a (Waiting i a).
Proof. cbn. lia. Qed.
Lemma near_reply a i idx r : near a (Waiting i idx) -> near a (if good r then Returned r else Bad i idx r).
Proof. intros H. destruct (good r) eqn:E; [exact E|exact H]. Qed.
Lemma near_move a p : a < n -> a <> g -> near a p -> near ((a + 1) mod n) p.
Proof. intros Ha Hne H. pose proof (dist_next a Ha Hne). destruct p; cbn in *; try lia; try assumption. Qed.
Lemma near_fail_old a i idx r : a < n -> idx <> a -> near a (Bad i idx r) -> near a (Signalling i r).
Proof.
  cbn. intros Ha Hne (H0 & H1 & H2). assert (dist a <> dist idx) by (intros E; apply Hne; symmetry; apply dist_inj; assumption). lia.
Qed.
Lemma near_fail_active a i r : a < n -> a <> g -> near a (Bad i a r) -> near ((a + 1) mod n) (Signalling i r).
Proof. cbn. intros Ha Hne (H0 & H1 & H2). pose proof (dist_next a Ha Hne). lia. Qed.
Lemma near_signalled a i r : near a (Signalling i r) -> near a (head n (i + 1) r).
Proof. cbn. intros H. apply near_head. exact H. Qed.
End Dist.

(** What is known of the calls: the resolver a call waits for is the one it was sent to last, and
    nobody holds a bad reply of g. *)
Definition linked (g : nat) (l : list gevent) (pcs : nat -> pc) : Prop :=
  forall u, match pcs u with
            | Waiting _ idx => last_sent u l None = Some idx
            | Bad _ idx _ => idx <> g
            | _ => True
            end.

Lemma linked_set g l pcs e u p :
  linked g l pcs -> (forall v, v <> u -> last_sent v [e] (last_sent v l None) = last_sent v l None) ->
  match p with
  | Waiting _ idx => last_sent u [e] (last_sent u l None) = Some idx
  | Bad _ idx _ => idx <> g
  | _ => True
  end -> linked g (l ++ [e]) (setpc pcs u p).
Proof.
  intros H Ho Hp v. destruct (Nat.eq_dec v u) as [->|Hne].
  - rewrite setpc_eq. destruct p; try exact I; [rewrite last_sent_app|]; exact Hp.
  - rewrite setpc_neq by exact Hne. specialize (H v). destruct (pcs v); try exact I; [|exact H].
    rewrite last_sent_app, Ho by exact Hne. exact H.
Qed.

Lemma linked_same g l pcs e :
  linked g l pcs -> (forall v, last_sent v [e] (last_sent v l None) = last_sent v l None) ->
  linked g (l ++ [e]) pcs.
Proof.
  intros H Ho v. specialize (H v). destruct (pcs v); try exact I; [|exact H].
  rewrite last_sent_app, Ho. exact H.
Qed.

Lemma head_linked g n i r : match head n i r with Bad _ idx _ => idx <> g | Waiting _ idx => False | _ => True end.
Proof. unfold head. destruct (Nat.ltb i n); exact I. Qed.

Section FRgood.
Variable n : nat.
Variable good : result -> bool.
Variable g : nat.
Hypothesis Hg : g < n.

Lemma fr_linked_step l s e s' : linked g l (g_pc s) -> g_active s < n -> always_good good g (l ++ [e]) ->
  fr_step n good s e = Some s' -> linked g (l ++ [e]) (g_pc s') /\ g_active s' < n /\
  (g_active s' = g_active s \/ (g_active s <> g /\ g_active s' = (g_active s + 1) mod n)).
Proof.
  intros Hl Ha Hgood He.
  destruct e as [u|u idx|u r|u|u| | | |d|u|x]; cbn [fr_step] in He; try discriminate;
    pose proof (Hl u) as Hu;
    destruct (g_pc s u) as [|i lst|i idx'|i idx' r'|i r'|r'] eqn:Ep; try discriminate.
  - inversion He; subst; clear He. cbn [g_set g_pc g_active]. split; [|split; [exact Ha|left; reflexivity]].
    apply linked_set; [exact Hl|reflexivity|]. pose proof (head_linked g n 0 Drop) as Hh. destruct (head n 0 Drop); tauto.
  - destruct (Nat.eqb_spec idx (g_active s)) as [->|]; [|discriminate].
    inversion He; subst; clear He. cbn [g_set g_pc g_active]. split; [|split; [exact Ha|left; reflexivity]].
    apply linked_set; [exact Hl| |].
    + intros v Hv. cbn [last_sent]. destruct (Nat.eqb_spec u v); [congruence|reflexivity].
    + cbn [last_sent]. rewrite Nat.eqb_refl. reflexivity.
  - inversion He; subst; clear He. cbn [g_set g_pc g_active]. split; [|split; [exact Ha|left; reflexivity]].
    apply linked_set; [exact Hl|reflexivity|]. destruct (good r) eqn:Eg; [exact I|].
    intros ->. pose proof (always_good_last _ _ _ _ _ Hgood Hu). congruence.
  - inversion He; subst; clear He. cbn [g_pc g_active]. split; [|split].
    + apply linked_set; [exact Hl|reflexivity|]. pose proof (head_linked g n (i + 1) r') as Hh. destruct (head n (i + 1) r'); tauto.
    + destruct (Nat.eqb _ _); [apply Nat.mod_upper_bound; lia|exact Ha].
    + destruct (Nat.eqb_spec idx' (g_active s)) as [<-|]; [right; split; [exact Hu|reflexivity]|left; reflexivity].
Qed.

Lemma fr_linked l s : exec (fr_step n good) g_init l = Some s -> always_good good g l ->
  linked g l (g_pc s) /\ g_active s < n.
Proof.
  apply (exec_inv (fr_step n good) (fun l s => always_good good g l -> linked g l (g_pc s) /\ g_active s < n)).
  - intros _. split; [intros u; exact I|cbn; lia].
  - clear l s. intros l s e s' IH He Hgood. destruct (IH (always_good_prefix _ _ _ _ Hgood)) as [H1 H2].
    destruct (fr_linked_step l s e s' H1 H2 Hgood He) as (H3 & H4 & _). split; assumption.
Qed.

Lemma fr_near_step l s e s' t : linked g l (g_pc s) -> g_active s < n -> always_good good g (l ++ [e]) ->
  near n g good (g_active s) (g_pc s t) ->
  fr_step n good s e = Some s' -> near n g good (g_active s') (g_pc s' t).
Proof.
  intros Hl Ha Hgood Hd He. destruct (of_call t e) eqn:Eo.
  - pose proof (Hl t) as Hu.
    destruct e as [u|u idx|u r|u|u| | | |d|u|x]; cbn [of_call] in Eo; try discriminate;
      apply Nat.eqb_eq in Eo; subst u; cbn [fr_step] in He;
      destruct (g_pc s t) as [|i lst|i idx'|i idx' r'|i r'|r'] eqn:Ep; try discriminate.
    + cbn in Hd. contradiction.
    + destruct (Nat.eqb_spec idx (g_active s)) as [->|]; [|discriminate].
      inversion He; subst; clear He. cbn [g_set g_pc g_active]. rewrite setpc_eq. eapply near_sent; eassumption.
    + inversion He; subst; clear He. cbn [g_set g_pc g_active]. rewrite setpc_eq. apply near_reply. exact Hd.
    + inversion He; subst; clear He. cbn [g_pc g_active]. rewrite setpc_eq. apply near_signalled; [exact Hg|].
      destruct (Nat.eqb_spec idx' (g_active s)) as [->|Hne].
      * apply near_fail_active; assumption.
      * eapply near_fail_old; eassumption.
  - rewrite (fr_step_pc n good s e s' t Eo He).
    destruct (fr_linked_step l s e s' Hl Ha Hgood He) as (_ & _ & [->|[Hne ->]]); [exact Hd|].
    apply near_move; assumption.
Qed.

Lemma fr_good_answer l s t r : exec (fr_step n good) g_init l = Some s -> always_good good g l ->
  g_pc s t = Returned r -> good r = true.
Proof.
  intros H Hgood Hr.
  assert (HP : linked g l (g_pc s) /\ g_active s < n /\ (g_pc s t = Idle \/ near n g good (g_active s) (g_pc s t))).
  2: { rewrite Hr in HP. destruct HP as (_ & _ & [HP|HP]); [discriminate|exact HP]. }
  clear Hr. revert l s H Hgood. apply (exec_inv (fr_step n good) (fun l s => always_good good g l ->
     linked g l (g_pc s) /\ g_active s < n /\ (g_pc s t = Idle \/ near n g good (g_active s) (g_pc s t))) g_init).
  - intros _. split; [intros u; exact I|]. split; [cbn; lia|]. left. reflexivity.
  - intros l s e s' IH He Hgood. destruct (IH (always_good_prefix _ _ _ _ Hgood)) as (H1 & H2 & H3).
    destruct (fr_linked_step l s e s' H1 H2 Hgood He) as (H4 & H5 & _).
    split; [exact H4|]. split; [exact H5|]. destruct H3 as [H3|H3].
    2: { right. exact (fr_near_step l s e s' t H1 H2 Hgood H3 He). }
    destruct (of_call t e) eqn:Eo.
    2: { left. rewrite (fr_step_pc n good s e s' t Eo He). exact H3. }
    destruct e as [u|u idx|u r0|u|u| | | |d|u|x]; cbn [of_call] in Eo; try discriminate;
      apply Nat.eqb_eq in Eo; subst u; cbn [fr_step] in He; rewrite H3 in He; try discriminate.
    inversion He; subst; clear He. right. cbn [g_set g_pc g_active]. rewrite setpc_eq.
    apply near_head; [exact Hg|]. cbn [plus]. apply dist_lt; assumption.
Qed.
End FRgood.

Lemma NoDup_map_in {A B} (f : A -> B) l : (forall x y, In x l -> In y l -> f x = f y -> x = y) -> NoDup l -> NoDup (map f l).
Proof.
  induction l as [|a l IH]; intros Hf Hn; cbn [map]; [constructor|]. inversion Hn; subst. constructor.
  - intros Hi. apply in_map_iff in Hi. destruct Hi as (y & E & Hy).
    apply Hf in E; [subst; contradiction|right; exact Hy|left; reflexivity].
  - apply IH; [|assumption]. intros x y Hx Hy. apply Hf; right; assumption.
Qed.

(** ** A call that runs alone visits the resolvers in order *)
Section FRseq.
Variable n : nat.
Variable good : result -> bool.

Definition upto (a k : nat) : list nat := map (fun j => (a + j) mod n) (seq 0 k).

Lemma upto_S a k : upto a (S k) = upto a k ++ [(a + k) mod n].
Proof. unfold upto. rewrite seq_S, map_app. reflexivity. Qed.

Lemma upto_nodup a k : k <= n -> NoDup (upto a k).
Proof.
  intros Hk. unfold upto. apply NoDup_map_in.
  - intros x y Hx Hy E. apply in_seq in Hx, Hy.
    assert (Hn : n <> 0) by lia.
    pose proof (Nat.div_mod (a + x) n Hn) as H1. pose proof (Nat.div_mod (a + y) n Hn) as H2.
    rewrite E in H1. revert H1 H2. generalize ((a + y) mod n) ((a + x) / n) ((a + y) / n). intros r p q H1 H2.
    assert (Hpq : p = q) by nia. subst. lia.
  - apply seq_NoDup.
Qed.

Definition seq_ok (a t : nat) (s : group) (sent : list nat) : Prop :=
  match g_pc s t with
  | Idle => sent = [] /\ g_active s = a
  | Ready i _ => sent = upto a i /\ g_active s = (a + i) mod n
  | Waiting i idx | Bad i idx _ => sent = upto a (S i) /\ g_active s = (a + i) mod n /\ idx = g_active s
  | Signalling _ _ => False
  | Returned _ => exists k, sent = upto a k
  end.

Lemma fr_seq l : forall s s' t, g_pc s t = Idle -> g_active s < n -> exec (fr_step n good) s l = Some s' ->
  (forall e, In e l -> of_call t e = true) -> exists k, sents l = upto (g_active s) k.
Proof.
  intros s s' t Hi Ha H Ho.
  assert (HP : seq_ok (g_active s) t s' (sents l)).
  2: { unfold seq_ok in HP. destruct (g_pc s' t) as [|i lst|i idx'|i idx' r'|i r'|r']; try tauto.
       - exists 0. destruct HP as [-> _]. reflexivity.
       - exists i. tauto.
       - exists (S i). tauto.
       - exists (S i). tauto. }
  revert l s' H Ho. apply (exec_inv (fr_step n good) (fun l s' => (forall e, In e l -> of_call t e = true) ->
    seq_ok (g_active s) t s' (sents l)) s).
  - intros _. unfold seq_ok. rewrite Hi. split; reflexivity.
  - intros l s1 e s2 IH He Ho. assert (Ho' : forall e, In e l -> of_call t e = true) by (intros; apply Ho, in_or_app; auto).
    specialize (IH Ho'). specialize (Ho e ltac:(apply in_or_app; right; left; reflexivity)).
    rewrite sents_app. unfold seq_ok in IH.
    destruct e as [u|u idx|u r0|u|u| | | |d|u|x]; cbn [of_call] in Ho; try discriminate;
      apply Nat.eqb_eq in Ho; subst u; cbn [fr_step] in He; cbn [sents]; rewrite ?app_nil_r;
      destruct (g_pc s1 t) as [|i lst|i idx'|i idx' r'|i r'|r'] eqn:Ep; try discriminate.
    + inversion He; subst; clear He. unfold seq_ok. cbn [g_set g_pc g_active]. rewrite setpc_eq.
      unfold head. destruct (Nat.ltb 0 n).
      * destruct IH as [-> ->]. split; [reflexivity|]. rewrite Nat.add_0_r. symmetry. apply Nat.mod_small. exact Ha.
      * exists 0. tauto.
    + destruct (Nat.eqb_spec idx (g_active s1)) as [->|]; [|discriminate]. inversion He; subst; clear He.
      unfold seq_ok. cbn [g_set g_pc g_active]. rewrite setpc_eq. destruct IH as [-> E].
      rewrite upto_S, <- E. auto.
    + inversion He; subst; clear He. unfold seq_ok. cbn [g_set g_pc g_active]. rewrite setpc_eq.
      destruct (good r0); [exists (S i); tauto|exact IH].
    + inversion He; subst; clear He. unfold seq_ok. cbn [g_pc g_active]. rewrite setpc_eq.
      destruct IH as (E1 & E2 & ->). rewrite Nat.eqb_refl. unfold head.
      destruct (Nat.ltb (i + 1) n).
      * replace (i + 1) with (S i) by lia. split; [exact E1|]. rewrite E2, Nat.add_mod_idemp_l by lia.
        f_equal. lia.
      * exists (S i). exact E1.
Qed.
End FRseq.
