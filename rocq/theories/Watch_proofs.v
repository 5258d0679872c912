(** Proofs about the watcher of namespaces. *)
From Verif Require Import Base Watch_model Watch_spec.
From Coq Require Import Lia ZifyBool Permutation.

Lemma latest_last l b d : latest l b <-> l <> [] /\ last l d = b.
Proof.
  split.
  - intros (k & ->). split; [destruct k; discriminate|]. apply last_last.
  - intros [N <-]. exists (removelast l). now apply app_removelast_last.
Qed.
Lemma latest_snoc l b c : latest (l ++ [b]) c <-> c = b.
Proof. split; [intros (k & E); apply app_inj_tail in E as [_ E]; auto|intros ->; now exists l]. Qed.
Lemma latest_nil b : ~ latest [] b.
Proof. intros (k & E). destruct k; discriminate. Qed.
Lemma latest_app l k b : k <> [] -> latest (l ++ k) b <-> latest k b.
Proof.
  intros N. split.
  - destruct (exists_last N) as (k' & c & ->). rewrite app_assoc. rewrite !latest_snoc. auto.
  - intros (k' & ->). exists (l ++ k'). now rewrite app_assoc.
Qed.
Lemma latest_cons b l c : l <> [] -> latest (b :: l) c <-> latest l c.
Proof. intros N. exact (latest_app [b] l c N). Qed.
Lemma alternates_snoc l b : alternates l -> (forall c, latest l c -> b = negb c) -> alternates (l ++ [b]).
Proof.
  intros A L x c d y E. destruct y as [|e y].
  - change (x ++ [c; d]) with (x ++ [c] ++ [d]) in E. rewrite app_assoc in E. apply app_inj_tail in E as [-> ->]. apply L. now exists x.
  - assert (exists z, e :: y = z ++ [b] ) as (z & Z).
    { destruct (exists_last (l := e :: y)) as (z & g & Z); [discriminate|]. exists z. rewrite Z in *. change (x ++ c :: d :: z ++ [g]) with (x ++ (c :: d :: z) ++ [g]) in E. rewrite app_assoc in E. apply app_inj_tail in E as [_ ->]. auto. }
    rewrite Z in E. change (x ++ c :: d :: z ++ [b]) with (x ++ (c :: d :: z) ++ [b]) in E. rewrite app_assoc in E. apply app_inj_tail in E as [E _]. exact (A _ _ _ _ E).
Qed.
Lemma part_snoc_take k l b : part_of k l -> part_of (k ++ [b]) (l ++ [b]).
Proof. induction 1; cbn; [repeat constructor|now apply part_take|now apply part_skip]. Qed.
Lemma part_snoc_skip k l b : part_of k l -> part_of k (l ++ [b]).
Proof. induction 1; cbn; [apply part_skip, part_nil|now apply part_take|now apply part_skip]. Qed.

(** One subscriber *)
Record good (x : sub) : Prop := {
  G1 : alternates (s_sent x);
  G2 : exists r, s_sent x = r ++ s_ch x;
  G3 : forall b, s_last x = Some b <-> latest (s_sent x) b;
  G4 : part_of (s_sent x) (s_in x);
  G5 : (length (s_ch x) <= 16)%nat;
  G6 : s_full x = false -> forall b, latest (s_in x) b -> s_last x = Some b }.
Lemma latest_fun l b c : latest l b -> latest l c -> b = c.
Proof. intros (k & ->) L. apply latest_snoc in L. auto. Qed.
Lemma good_new i n r : good (Sub i n [] None [] [] false r).
Proof.
  constructor; cbn.
  - intros x b c y E. destruct x; discriminate.
  - now exists [].
  - intros b. split; [discriminate|intros L; now apply latest_nil in L].
  - constructor.
  - lia.
  - intros _ b L. now apply latest_nil in L.
Qed.
Lemma good_notify x b : good x -> good (notifyLocked x b) /\ told b x (notifyLocked x b) /\ s_in (notifyLocked x b) = s_in x ++ [b] /\ s_raced (notifyLocked x b) = s_raced x.
Proof.
  intros [A1 A2 A3 A4 A5 A6]. unfold notifyLocked, told.
  destruct (match s_last x with Some l => Bool.eqb l b | None => false end) eqn:E.
  - assert (s_last x = Some b) as L by (destruct (s_last x) as [l|]; [apply Bool.eqb_prop in E; congruence|discriminate]).
    split; [|split; [cbn; repeat split; auto; left; repeat split; auto; now apply A3|auto]].
    constructor; cbn; auto.
    + now apply part_snoc_skip.
    + intros _ c C. apply latest_snoc in C. congruence.
  - assert (~ latest (s_sent x) b) as NL by (intros L; apply A3 in L; rewrite L, Bool.eqb_reflx in E; discriminate).
    destruct (Nat.ltb_spec (length (s_ch x)) 16) as [L|L].
    + split; [|split; [cbn; repeat split; auto; right; right; auto|auto]]. constructor; cbn.
      * apply alternates_snoc; auto. intros c C. destruct b, c; auto; contradiction.
      * destruct A2 as (r & ->). exists r. now rewrite app_assoc.
      * intros c. rewrite latest_snoc. split; congruence.
      * now apply part_snoc_take.
      * rewrite app_length; cbn; lia.
      * intros _ c C. apply latest_snoc in C. congruence.
    + split; [|split; [cbn; repeat split; auto; right; left; repeat split; auto; lia|auto]]. constructor; cbn; auto.
      * now apply part_snoc_skip.
      * discriminate.
Qed.
Lemma good_heard x : good x -> good (heard x).
Proof. intros [A1 A2 A3 A4 A5 A6]. constructor; cbn; auto. Qed.
Lemma good_take i l : Forall good l -> Forall good (take i l).
Proof.
  intros F. unfold take. apply Forall_map. eapply Forall_impl; [|exact F]. intros x [A1 A2 A3 A4 A5 A6]. destruct (s_id x =? i)%nat; [|constructor; auto].
  constructor; cbn; auto.
  - destruct A2 as (r & ->). destruct (s_ch x) as [|b ch]; cbn; [exists r; auto|]. exists (r ++ [b]). now rewrite <- app_assoc.
  - destruct (s_ch x); cbn in *; lia.
Qed.
Lemma in_cut_out i l x : In x (cut_out i l) -> In x l.
Proof. induction l as [|y l IH]; cbn; auto. destruct (s_id y =? i)%nat; cbn; intuition. Qed.
Section RUN.
Variable limit : nat.
Definition goods (s : st) : Prop := Forall good (subs s) /\ Forall good (former s).
Lemma goods_step a s s' : goods s -> step limit a s = Some s' -> goods s'.
Proof.
  intros [A B] E. destruct a as [n|n|i| |i|i]; cbn [step] in E.
  - destruct (if entry n then _ else _) as [q lost]. injection E as <-. split; auto.
  - injection E as <-. split; auto.
  - destruct (find _ _) as [j|]; [|discriminate]. injection E as <-. split; auto. cbn [subs]. apply Forall_app. split; auto. constructor; auto. apply good_notify, good_new.
  - destruct (queue s) as [|[[n b]|] q]; [discriminate| |]; injection E as <-; split; auto. cbn [subs]. unfold dispatch. apply Forall_map. eapply Forall_impl; [|exact A].
    intros x X. destruct (String.eqb (s_name x) n); auto. apply good_heard, good_notify, X.
  - injection E as <-. split; apply good_take; auto.
  - destruct (find_sub i (subs s)) as [x|] eqn:F; [|injection E as <-; split; auto]. injection E as <-. apply find_some in F as [F _]. rewrite Forall_forall in A, B. split; apply Forall_forall; cbn [subs former].
    + intros y Y. apply A. eapply in_cut_out; eauto.
    + intros y [<-|Y]; auto.
Qed.
Lemma run_keeps (P : st -> Prop) : (forall a s s', P s -> step limit a s = Some s' -> P s') -> forall ls s s', P s -> run limit ls s = Some s' -> P s'.
Proof. intros K. induction ls as [|l ls IH]; intros s s' H E; cbn in E; [congruence|]. destruct (step limit l s) as [t|] eqn:S; [|discriminate]. eauto. Qed.
Lemma reach_goods s : reachable limit s -> goods s.
Proof. intros (f & ls & E). apply (run_keeps goods goods_step ls (init f)); auto. split; constructor. Qed.
Lemma reach_good s x : reachable limit s -> In x (subs s) \/ In x (former s) -> good x.
Proof. intros R. destruct (reach_goods _ R) as [A B]. rewrite Forall_forall in A, B. intros [H|H]; auto. Qed.

Lemma sent_order s x : reachable limit s -> In x (subs s) \/ In x (former s) -> alternates (s_sent x) /\ (exists r, s_sent x = r ++ s_ch x) /\ part_of (s_sent x) (s_in x) /\ (length (s_ch x) <= 16)%nat.
Proof. intros R H. destruct (reach_good _ _ R H). auto. Qed.
Lemma dispatched s n b q : reachable limit s -> queue s = Some (n, b) :: q -> exists s', step limit Next s = Some s' /\ queue s' = q /\ former s' = former s /\
  Forall2 (fun x y => if String.eqb (s_name x) n then told b x y /\ s_in y = s_in x ++ [b] /\ s_raced y = false else y = x) (subs s) (subs s').
Proof.
  intros R Q. cbn [step]. rewrite Q. eexists; split; [reflexivity|]. cbn [queue former subs]. repeat split. destruct (reach_goods _ R) as [A _]. unfold dispatch.
  induction (subs s) as [|x l IH]; cbn; constructor; inversion A; subst; auto. destruct (String.eqb (s_name x) n); auto.
  destruct (good_notify x b) as (_ & T & I & _); auto.
Qed.
Lemma only_events s a s' : step limit a s = Some s' -> match a with
  | Next | Join _ | Cancel _ => True
  | Recv i => Forall2 (fun x y => s_sent y = s_sent x /\ s_in y = s_in x /\ s_id y = s_id x /\ s_name y = s_name x /\ s_full y = s_full x /\ s_raced y = s_raced x /\ s_ch y = if (s_id x =? i)%nat then tl (s_ch x) else s_ch x) (subs s ++ former s) (subs s' ++ former s')
  | _ => subs s' = subs s /\ former s' = former s end.
Proof.
  intros E. destruct a as [n|n|i| |i|i]; cbn [step] in E; auto.
  - destruct (if entry n then _ else _). injection E as <-. auto.
  - injection E as <-. auto.
  - injection E as <-. cbn [subs former]. unfold take. rewrite <- map_app. induction (subs s ++ former s) as [|x l IH]; cbn; constructor; auto. destruct (s_id x =? i)%nat; cbn; auto 10.
Qed.

(** Numbers *)
Definition fresh (s : st) : Prop := NoDup (ids s) /\ forall i, In i (ids s) -> (i < next s)%nat.
Lemma ids_dispatch n b l : map s_id (dispatch n b l) = map s_id l.
Proof.
  unfold dispatch. rewrite map_map. apply map_ext. intros x. destruct (String.eqb (s_name x) n); auto. unfold notifyLocked.
  destruct (match s_last x with Some _ => _ | None => _ end); auto. now destruct (_ <? _)%nat.
Qed.
Lemma ids_take i l : map s_id (take i l) = map s_id l.
Proof. unfold take. rewrite map_map. apply map_ext. intros x. now destruct (s_id x =? i)%nat. Qed.
Lemma name_notify x b : s_name (notifyLocked x b) = s_name x /\ s_id (notifyLocked x b) = s_id x.
Proof. unfold notifyLocked. destruct (match s_last x with Some _ => _ | None => _ end); auto. now destruct (_ <? _)%nat. Qed.
Lemma cut_perm i l x : find_sub i l = Some x -> Permutation l (x :: cut_out i l).
Proof.
  induction l as [|y l IH]; [discriminate|]. cbn. destruct (s_id y =? i)%nat eqn:E.
  - intros [= <-]. reflexivity.
  - intros F. rewrite (IH F) at 1. constructor.
Qed.
Lemma join_perm i l j : NoDup (map j_id l) -> find (fun j => (j_id j =? i)%nat) l = Some j -> Permutation (map j_id l) (i :: map j_id (filter (fun j => negb (j_id j =? i)%nat) l)).
Proof.
  induction l as [|y l IH]; [discriminate|]. cbn. intros ND. inversion ND as [|? ? NI ND']; subst. destruct (Nat.eqb_spec (j_id y) i) as [E|E]; cbn.
  - intros _. rewrite E. constructor. replace (filter (fun j0 => negb (j_id j0 =? i)%nat) l) with l; [reflexivity|].
    symmetry. rewrite E in NI. clear -NI. induction l as [|z l IH]; cbn in *; auto. destruct (Nat.eqb_spec (j_id z) i); [exfalso; auto|]. cbn. f_equal. auto.
  - intros F. rewrite (IH ND' F) at 1. constructor.
Qed.
Lemma fresh_step a s s' : fresh s -> step limit a s = Some s' -> fresh s'.
Proof.
  intros [ND LT] E. destruct a as [n|n|i| |i|i]; cbn [step] in E.
  - destruct (if entry n then _ else _). injection E as <-. unfold fresh, ids in *. cbn [joins subs former next].
    replace (map j_id (map _ (joins s))) with (map j_id (joins s)); [auto|]. rewrite map_map. apply map_ext. intros j. now destruct (String.eqb (j_name j) n).
  - injection E as <-. unfold fresh, ids in *. cbn [joins subs former next]. rewrite map_app; cbn [map j_id]. rewrite <- app_assoc. cbn [app].
    assert (Permutation (map j_id (joins s) ++ next s :: map s_id (subs s) ++ map s_id (former s)) (next s :: map j_id (joins s) ++ map s_id (subs s) ++ map s_id (former s))) as P by (symmetry; apply Permutation_middle).
    split.
    + apply (Permutation_NoDup (Permutation_sym P)). constructor; auto. intros H. specialize (LT _ H). lia.
    + intros i H. apply (Permutation_in _ P) in H as [<-|H]; [lia|]. specialize (LT _ H). lia.
  - destruct (find _ _) as [j|] eqn:F; [|discriminate]. injection E as <-. unfold fresh, ids in *. cbn [joins subs former next].
    rewrite map_app; cbn [map]. rewrite (proj2 (name_notify _ _)). cbn [s_id].
    assert (Permutation (map j_id (joins s) ++ map s_id (subs s) ++ map s_id (former s)) (map j_id (filter (fun j => negb (j_id j =? i)%nat) (joins s)) ++ (map s_id (subs s) ++ [i]) ++ map s_id (former s))) as P.
    { assert (NoDup (map j_id (joins s))) as NJ. { clear -ND. revert ND. induction (map j_id (joins s)) as [|z l IH]; cbn; intros ND; constructor; inversion ND; subst; auto. intros H. apply H1, in_or_app. auto. }
      rewrite (join_perm _ _ _ NJ F) at 1. rewrite <- app_assoc. cbn [app]. rewrite !app_assoc. apply Permutation_cons_app. reflexivity. }
    split; [exact (Permutation_NoDup P ND)|]. intros k H. apply LT. exact (Permutation_in _ (Permutation_sym P) H).
  - destruct (queue s) as [|[[n b]|] q]; [discriminate| |]; injection E as <-; unfold fresh, ids in *; cbn [joins subs former next]; rewrite ?ids_dispatch; auto.
  - injection E as <-. unfold fresh, ids in *; cbn [joins subs former next]. rewrite !ids_take. auto.
  - destruct (find_sub i (subs s)) as [x|] eqn:F; [|injection E as <-; split; auto]. injection E as <-. unfold fresh, ids in *; cbn [joins subs former next map].
    assert (Permutation (map j_id (joins s) ++ map s_id (subs s) ++ map s_id (former s)) (map j_id (joins s) ++ map s_id (cut_out i (subs s)) ++ s_id x :: map s_id (former s))) as P.
    { apply Permutation_app_head. rewrite (Permutation_map s_id (cut_perm _ _ _ F)). cbn [map app]. apply Permutation_middle. }
    split; [exact (Permutation_NoDup P ND)|]. intros k H. apply LT. exact (Permutation_in _ (Permutation_sym P) H).
Qed.
Lemma reach_fresh s : reachable limit s -> fresh s.
Proof. intros (f & ls & E). apply (run_keeps fresh fresh_step ls (init f)); auto. split; [constructor|intros i []]. Qed.
Lemma numbers s : reachable limit s -> NoDup (ids s).
Proof. intros R. exact (proj1 (reach_fresh _ R)). Qed.
Lemma cut_filter i l : NoDup (map s_id l) -> cut_out i l = filter (fun x => negb (s_id x =? i)%nat) l.
Proof.
  induction l as [|y l IH]; cbn; auto. intros ND. inversion ND as [|? ? NI ND']; subst. destruct (Nat.eqb_spec (s_id y) i) as [E|E]; cbn; [|now rewrite IH].
  rewrite E in NI. clear -NI. induction l as [|z l IH]; cbn in *; auto. destruct (Nat.eqb_spec (s_id z) i); [exfalso; auto|]. cbn. f_equal. auto.
Qed.
Lemma nodup_mid {A} (a b c : list A) : NoDup (a ++ b ++ c) -> NoDup b.
Proof.
  induction a as [|x a IH]; cbn; intros ND; [|inversion ND; auto]. induction b as [|y b IHb]; constructor; inversion ND; subst; auto. intros H. apply H1, in_or_app. auto.
Qed.
Lemma cancelled s i s' : reachable limit s -> step limit (Cancel i) s = Some s' ->
  subs s' = filter (fun x => negb (s_id x =? i)%nat) (subs s) /\ queue s' = queue s /\ there s' = there s /\ joins s' = joins s.
Proof.
  intros R E. pose proof (nodup_mid _ _ _ (numbers _ R)) as ND. cbn [step] in E. destruct (find_sub i (subs s)) as [x|] eqn:F; injection E as <-; cbn [subs queue there joins]; repeat split.
  - now apply cut_filter.
  - unfold find_sub in F. clear -F. induction (subs s) as [|y l IH]; cbn in *; auto. destruct (s_id y =? i)%nat; [discriminate|]. cbn. f_equal. auto.
Qed.
(** After Cancel nothing is sent any more *)
Definition over_for (i : nat) (l : list bool) (s : st) : Prop := exists x, In x (former s) /\ s_id x = i /\ s_sent x = l.
Lemma over_step i l a s s' : over_for i l s -> step limit a s = Some s' -> over_for i l s'.
Proof.
  intros (x & H & I & S) E. destruct a as [n|n|k| |k|k]; cbn [step] in E.
  - destruct (if entry n then _ else _). injection E as <-. exists x. auto.
  - injection E as <-. exists x. auto.
  - destruct (find _ _); [|discriminate]. injection E as <-. exists x. auto.
  - destruct (queue s) as [|[[n b]|] q]; [discriminate| |]; injection E as <-; exists x; auto.
  - injection E as <-. cbn [former over_for]. exists (if (s_id x =? k)%nat then Sub (s_id x) (s_name x) (tl (s_ch x)) (s_last x) (s_sent x) (s_in x) (s_full x) (s_raced x) else x).
    cbn [former]. split; [unfold take; exact (in_map _ _ _ H)|]. destruct (s_id x =? k)%nat; auto.
  - destruct (find_sub k (subs s)) as [y|]; injection E as <-; exists x; cbn [former]; cbn; auto.
Qed.
Lemma silent s i x s' ls s'' : reachable limit s -> In x (subs s) -> s_id x = i -> step limit (Cancel i) s = Some s' -> run limit ls s' = Some s'' ->
  (forall y, In y (subs s'') -> s_id y <> i) /\ exists y, In y (former s'') /\ s_id y = i /\ s_sent y = s_sent x.
Proof.
  intros R H I E L. assert (over_for i (s_sent x) s') as O.
  { cbn [step] in E. destruct (find_sub i (subs s)) as [y|] eqn:F.
    - injection E as <-. unfold find_sub in F. pose proof (find_some _ _ F) as [F1 F2]. apply Nat.eqb_eq in F2.
      pose proof (nodup_mid _ _ _ (numbers _ R)) as ND. assert (y = x) as ->. { clear -ND H I F1 F2. induction (subs s) as [|z l IH]; [contradiction|]. inversion ND as [|? ? NI ND']; subst. destruct H as [->|H], F1 as [->|F1]; auto.
        - exfalso. apply NI. rewrite <- F2. now apply in_map.
        - exfalso. apply NI. rewrite F2. now apply in_map. }
      exists x. cbn. auto.
    - exfalso. apply (find_none _ _ F) in H. cbn in H. apply Nat.eqb_neq in H. contradiction. }
  assert (over_for i (s_sent x) s'') as (y & Y & I' & S) by (exact (run_keeps _ (over_step i (s_sent x)) ls s' s'' O L)).
  split; [|exists y; auto]. intros z Z EZ. assert (reachable limit s'') as R''.
  { destruct R as (f & ls0 & R). exists f, (ls0 ++ Cancel i :: ls). clear -R E L. revert R. generalize (init f). induction ls0 as [|a l IH]; intros t R; cbn [app run] in *.
    - injection R as ->. rewrite E. exact L.
    - destruct (step limit a t); [|discriminate]. auto. }
  pose proof (numbers _ R'') as ND. unfold ids in ND. assert (NoDup (map s_id (subs s'') ++ map s_id (former s''))) as ND'. { revert ND. generalize (map j_id (joins s'')). induction l as [|w l IH]; cbn; auto. intros N. inversion N; auto. }
  apply (in_map s_id) in Z, Y. rewrite EZ in Z. rewrite I' in Y. clear -ND' Z Y. induction (map s_id (subs s'')) as [|w l IH]; [contradiction|]. cbn in ND'. inversion ND' as [|? ? N N']; subst. destruct Z as [->|Z]; auto. apply N, in_or_app. auto.
Qed.

(** ** Joining *)
Definition waits_to_join (i : nat) (n : string) (b ch : bool) (s : st) : Prop := exists j, In j (joins s) /\ j_id j = i /\ j_name j = n /\ j_state j = b /\ (ch = false -> j_changed j = false).
Lemma joining_run i n b : forall ls s s' ch, waits_to_join i n b ch s -> ~ In (Join i) ls -> run limit ls s = Some s' -> exists ch', waits_to_join i n b ch' s' /\ (~ In (Change n) ls -> ch' = ch).
Proof.
  induction ls as [|a ls IH]; intros s s' ch W NJ E; cbn [run] in E.
  - injection E as <-. exists ch. auto.
  - destruct (step limit a s) as [t|] eqn:S; [|discriminate].
    assert (exists ch1, waits_to_join i n b ch1 t /\ (a <> Change n -> ch1 = ch)) as (ch1 & W1 & C1).
    { destruct W as (j & J & JI & JN & JB & JC). destruct a as [m|m|k| |k|k]; cbn [step] in S.
      - destruct (if entry m then _ else _) as [q lost]. injection S as <-. destruct (String.eqb_spec n m) as [<-|NE].
        + exists true. split; [|congruence]. exists (Joining (j_id j) (j_name j) (j_state j) true). cbn [joins]. split; [|cbn; intuition discriminate].
          apply in_map_iff. exists j. rewrite JN, String.eqb_refl. auto.
        + exists ch. split; auto. exists j. cbn [joins]. split; auto. apply in_map_iff. exists j. split; auto. rewrite JN. destruct (String.eqb_spec n m); [congruence|auto].
      - injection S as <-. exists ch. split; auto. exists j. cbn [joins]. split; [apply in_or_app; auto|auto].
      - destruct (find _ _) as [x|]; [|discriminate]. injection S as <-. exists ch. split; auto. exists j. cbn [joins]. split; auto. apply filter_In. split; auto. destruct (Nat.eqb_spec (j_id j) k) as [K|K]; auto. exfalso. apply NJ. left. congruence.
      - destruct (queue s) as [|[[m c]|] q]; [discriminate| |]; injection S as <-; exists ch; split; auto; exists j; auto.
      - injection S as <-. exists ch. split; auto. exists j; auto.
      - destruct (find_sub k (subs s)); injection S as <-; exists ch; split; auto; exists j; auto. }
    destruct (IH t s' ch1 W1 (fun H => NJ (or_intror H)) E) as (ch2 & W2 & C2). exists ch2. split; auto. intros NC. rewrite C2 by (intros H; apply NC; now right). apply C1. intros ->. apply NC. now left.
Qed.
Lemma run_app a b s : run limit (a ++ b) s = match run limit a s with Some t => run limit b t | None => None end.
Proof. revert s. induction a as [|l a IH]; intros s; cbn; auto. destruct (step limit l s); auto. Qed.
Lemma reach_run s ls s' : reachable limit s -> run limit ls s = Some s' -> reachable limit s'.
Proof. intros (f & l & R) E. exists f, (l ++ ls). now rewrite run_app, R. Qed.
Lemma joined s n ls t : reachable limit s -> run limit (Stat n :: ls) s = Some t -> ~ In (Join (next s)) ls ->
  exists t' x, step limit (Join (next s)) t = Some t' /\ subs t' = subs t ++ [x] /\ former t' = former t /\ queue t' = queue t /\ there t' = there t /\
    s_id x = next s /\ s_name x = n /\ s_sent x = [there s n] /\ s_ch x = [there s n] /\ s_in x = [there s n] /\ s_full x = false /\ (~ In (Change n) ls -> s_raced x = false).
Proof.
  intros R E NJ. pose proof (reach_run _ _ _ R E) as R'. pose proof (numbers _ R') as ND. cbn [run step] in E.
  match type of E with run _ _ ?u = _ => assert (waits_to_join (next s) n (there s n) false u) as W; [|destruct (joining_run _ _ _ _ _ _ _ W NJ E) as (ch & (j & J & JI & JN & JB & JC) & C)] end.
  { eexists. cbn [joins]. split; [apply in_or_app; right; left; reflexivity|]. cbn. auto. }
  assert (find (fun j => (j_id j =? next s)%nat) (joins t) = Some j) as F.
  { assert (NoDup (map j_id (joins t))) as NJJ. { revert ND. unfold ids. generalize (map s_id (subs t) ++ map s_id (former t)). induction (map j_id (joins t)) as [|w l IH]; intros r N; constructor; inversion N; subst; eauto. intros H. apply H1, in_or_app. auto. }
    clear -J JI NJJ. induction (joins t) as [|k l IH]; [contradiction|]. cbn. inversion NJJ as [|? ? NI N']; subst. destruct (Nat.eqb_spec (j_id k) (next s)) as [K|K].
    - destruct J as [->|J]; auto. exfalso. apply NI. rewrite K, <- JI. now apply in_map.
    - destruct J as [->|J]; [contradiction|auto]. }
  cbn [step]. rewrite F. eexists _, _. split; [reflexivity|]. cbn [subs former queue there]. split; [reflexivity|]. repeat (split; [reflexivity|]). cbn. rewrite JN, JB. repeat split; auto.
Qed.

(** ** What is sent is what is there *)
Lemma events_app n q q' : events_for n (q ++ q') = events_for n q ++ events_for n q'.
Proof. induction q as [|[[m b]|] q IH]; cbn; auto. destruct (String.eqb m n); cbn; now rewrite IH. Qed.
Record settled (s : st) : Prop := {
  S1 : forall n b, entry n = true -> latest (events_for n (queue s)) b -> b = there s n;
  S2 : forall j, In j (joins s) -> j_changed j = false -> j_state j = there s (j_name j);
  S3 : forall x, In x (subs s) -> s_raced x = false -> entry (s_name x) = true -> forall b, latest (s_in x ++ events_for (s_name x) (queue s)) b -> b = there s (s_name x);
  S4 : forall x, In x (subs s) -> s_in x <> [] }.
Lemma push_over n b q : snd (push limit n b q) = false -> fst (push limit n b q) = q ++ [Some (n, b)].
Proof. unfold push. destruct (_ <? _)%nat; cbn; auto. discriminate. Qed.
Lemma settled_step a s s' : goods s -> (over s = false -> settled s) -> step limit a s = Some s' -> over s' = false -> settled s'.
Proof.
  intros GS IH E O. destruct a as [n|n|i| |i|i]; cbn [step] in E.
  - destruct (if entry n then push limit n (negb (there s n)) (queue s) else (queue s, false)) as [q lost] eqn:P. injection E as <-. cbn [over] in O. apply orb_false_iff in O as [O ->]. destruct (IH O) as [A B C D].
    assert (forall m, events_for m q = events_for m (queue s) ++ (if entry n && String.eqb n m then [negb (there s n)] else [])) as EV.
    { intros m. destruct (entry n) eqn:EN; cbn [andb].
      - pose proof (push_over n (negb (there s n)) (queue s)) as PO. rewrite P in PO. cbn in PO. rewrite (PO eq_refl), events_app. cbn. now destruct (String.eqb n m).
      - injection P as <-. now rewrite app_nil_r. }
    constructor; cbn [there queue joins subs].
    + intros m b EM. rewrite EV. destruct (String.eqb_spec n m) as [->|NE]; rewrite ?andb_false_r, ?app_nil_r.
      * rewrite EM. cbn [andb]. intros L. now apply latest_snoc in L.
      * apply A; auto.
    + intros j J. apply in_map_iff in J as (j0 & <- & J). destruct (String.eqb_spec (j_name j0) n) as [EJ|EJ]; cbn; [discriminate|]. intros CH. rewrite (B _ J CH). destruct (String.eqb_spec n (j_name j0)); [congruence|auto].
    + intros x X RX EX b. rewrite EV. destruct (String.eqb_spec n (s_name x)) as [->|NE]; rewrite ?andb_false_r, ?app_nil_r.
      * rewrite EX. cbn [andb]. rewrite app_assoc. intros L. now apply latest_snoc in L.
      * apply C; auto.
    + auto.
  - injection E as <-. destruct (IH O) as [A B C D]. constructor; cbn [there queue joins subs]; auto. intros j J. apply in_app_or in J as [J|[<-|[]]]; auto.
  - destruct (find _ _) as [j|] eqn:F; [|discriminate]. injection E as <-. destruct (IH O) as [A B C D]. apply find_some in F as [F _].
    constructor; cbn [there queue joins subs]; auto.
    + intros k K. apply filter_In in K as [K _]. auto.
    + intros x X. apply in_app_or in X as [X|[<-|[]]]; auto. destruct (good_notify _ (j_state j) (good_new i (j_name j) (j_changed j))) as (_ & _ & IN & RA).
      rewrite (proj1 (name_notify _ _)). rewrite IN, RA. cbn [s_in s_raced s_name app]. intros CH EX b L. destruct (events_for (j_name j) (queue s)) as [|e l] eqn:EV.
      * apply (latest_snoc [] (j_state j) b) in L. subst. auto.
      * rewrite latest_cons in L by discriminate. rewrite <- EV in L. now apply A.
    + intros x X. apply in_app_or in X as [X|[<-|[]]]; auto. destruct (good_notify _ (j_state j) (good_new i (j_name j) (j_changed j))) as (_ & _ & IN & RA). rewrite IN. cbn. discriminate.
  - destruct (queue s) as [|[[n b]|] q] eqn:Q; [discriminate| |]; injection E as <-; destruct (IH O) as [A B C D]; rewrite Q in *.
    + assert (forall m c, events_for m (Some (n, b) :: q) = (if String.eqb n m then [b] else []) ++ events_for m q /\ (latest (events_for m q) c -> latest (events_for m (Some (n, b) :: q)) c)) as EV.
      { intros m c. cbn [events_for]. destruct (String.eqb n m); split; auto. intros L. destruct (events_for m q) eqn:EQ; [now apply latest_nil in L|]. apply latest_cons; [discriminate|auto]. }
      assert (forall y, In y (dispatch n b (subs s)) -> exists x, In x (subs s) /\ s_name y = s_name x /\ ((s_name x = n /\ s_in y = s_in x ++ [b]) \/ (s_name x <> n /\ y = x))) as DI.
      { intros y Y. unfold dispatch in Y. apply in_map_iff in Y as (x & <- & X). exists x. split; auto. destruct GS as [GS _]. rewrite Forall_forall in GS.
        destruct (String.eqb_spec (s_name x) n) as [EX|EX]; [|auto]. destruct (good_notify x b (GS _ X)) as (_ & _ & IN & _). cbn. rewrite (proj1 (name_notify _ _)). auto. }
      constructor; cbn [there queue joins subs]; auto.
      * intros m c EM L. apply A; auto. now apply EV.
      * intros y Y RY EY c. destruct (DI _ Y) as (x & X & NM & [[EX IN]|[EX ->]]).
        -- rewrite NM, EX in *. rewrite IN. rewrite <- app_assoc. intros L. apply A; [auto|]. destruct (EV n c) as [EQ _]. rewrite EQ, String.eqb_refl. rewrite latest_app in L by discriminate. exact L.
        -- intros L. apply C; auto. destruct (EV (s_name x) c) as [EQ _]. rewrite EQ. destruct (String.eqb_spec n (s_name x)); [congruence|auto].
      * intros y Y. destruct (DI _ Y) as (x & X & NM & [[EX IN]|[EX ->]]); [|auto]. rewrite IN. destruct (s_in x); discriminate.
    + constructor; cbn [there queue joins subs]; auto.
  - injection E as <-. destruct (IH O) as [A B C D]. assert (forall y, In y (take i (subs s)) -> exists x, In x (subs s) /\ s_name y = s_name x /\ s_in y = s_in x /\ s_raced y = s_raced x) as TI.
    { intros y Y. unfold take in Y. apply in_map_iff in Y as (x & <- & X). exists x. destruct (s_id x =? i)%nat; auto. }
    constructor; cbn [there queue joins subs]; auto.
    + intros y Y. destruct (TI _ Y) as (x & X & -> & -> & ->). auto.
    + intros y Y. destruct (TI _ Y) as (x & X & _ & -> & _). auto.
  - destruct (find_sub i (subs s)) as [x|] eqn:F; injection E as <-; auto. destruct (IH O) as [A B C D]. constructor; cbn [there queue joins subs]; auto; intros y Y; apply in_cut_out in Y; auto.
Qed.
Lemma reach_settled s : reachable limit s -> over s = false -> settled s.
Proof.
  intros (f & ls & E). assert (goods s /\ (over s = false -> settled s)) as [_ H]; auto.
  apply (run_keeps (fun s => goods s /\ (over s = false -> settled s))) with (ls := ls) (s := init f); auto.
  - intros a t t' [G S] ST. split; [eapply goods_step; eauto|eapply settled_step; eauto].
  - split; [split; constructor|]. intros _. constructor; cbn; try contradiction. intros n b _ L. now apply latest_nil in L.
Qed.
Lemma informed s x : reachable limit s -> over s = false -> In x (subs s) -> entry (s_name x) = true -> s_raced x = false -> s_full x = false -> events_for (s_name x) (queue s) = [] ->
  latest (s_sent x) (there s (s_name x)).
Proof.
  intros R O X EX RX FX Q. destruct (reach_settled _ R O) as [_ _ C D]. destruct (reach_good _ _ R (or_introl X)) as [_ _ A3 _ _ A6].
  destruct (exists_last (D _ X)) as (k & b & IN). assert (latest (s_in x) b) as L by now exists k.
  pose proof (C _ X RX EX b) as CB. rewrite Q, app_nil_r in CB. rewrite <- (CB L). apply A3, A6; auto.
Qed.
End RUN.

Section WAITING.
Local Open Scope Z_scope.
Variable statfs : Z -> fstat.
Lemma wait_decides d rounds w : wait statfs d rounds = Some w <->
  exists x c r y, rounds = x ++ (c, r) :: y /\ (forall c' r', In (c', r') x -> statfs c' = Other /\ r' < d) /\
    match w with Ready => statfs c = Nsfs | NotThere => statfs c = Missing | TimedOut => statfs c = Other /\ d <= r end.
Proof.
  induction rounds as [|[c r] rounds IH]; cbn.
  - split; [discriminate|]. intros (x & c & r & y & E & _). destruct x; discriminate.
  - assert (forall w', match w' with Ready => statfs c = Nsfs | NotThere => statfs c = Missing | TimedOut => statfs c = Other /\ d <= r end -> w' = w -> exists x c0 r0 y, (c, r) :: rounds = x ++ (c0, r0) :: y /\ (forall c' r', In (c', r') x -> statfs c' = Other /\ r' < d) /\
      match w with Ready => statfs c0 = Nsfs | NotThere => statfs c0 = Missing | TimedOut => statfs c0 = Other /\ d <= r0 end) as HERE.
    { intros w' H ->. exists [], c, r, rounds. repeat split; auto; contradiction. }
    assert (forall c0 r0 x y, (c, r) :: rounds = x ++ (c0, r0) :: y -> x = [] /\ c0 = c /\ r0 = r \/ exists x', x = (c, r) :: x' /\ rounds = x' ++ (c0, r0) :: y) as CASES.
    { intros c0 r0 x y E. destruct x as [|p x]; cbn in E; injection E; intros; subst; [left; auto|right; exists x; auto]. }
    destruct (statfs c) eqn:S.
    + split; [intros [= <-]; now apply (HERE Ready)|]. intros (x & c0 & r0 & y & E & O & M). destruct (CASES _ _ _ _ E) as [(-> & -> & ->)|(x' & -> & _)].
      * rewrite S in M. destruct w; intuition congruence.
      * destruct (O c r); [now left|congruence].
    + split; [intros [= <-]; now apply (HERE NotThere)|]. intros (x & c0 & r0 & y & E & O & M). destruct (CASES _ _ _ _ E) as [(-> & -> & ->)|(x' & -> & _)].
      * rewrite S in M. destruct w; intuition congruence.
      * destruct (O c r); [now left|congruence].
    + destruct (Z.leb_spec (d - r) 0) as [L|L].
      * split; [intros [= <-]; apply (HERE TimedOut); auto; split; auto; lia|]. intros (x & c0 & r0 & y & E & O & M). destruct (CASES _ _ _ _ E) as [(-> & -> & ->)|(x' & -> & _)].
        -- rewrite S in M. destruct w; intuition congruence.
        -- destruct (O c r); [now left|lia].
      * rewrite IH. split.
        -- intros (x & c0 & r0 & y & -> & O & M). exists ((c, r) :: x), c0, r0, y. split; [auto|]. split; auto. intros c' r' [E|H]; [|auto]. injection E as <- <-. split; [auto|lia].
        -- intros (x & c0 & r0 & y & E & O & M). destruct (CASES _ _ _ _ E) as [(-> & -> & ->)|(x' & -> & E')].
           ++ rewrite S in M. destruct w; try congruence. lia.
           ++ exists x', c0, r0, y. split; [auto|]. split; auto. intros c' r' H. apply O. now right.
Qed.
Lemma recheck_pos : 0 < recheck.
Proof. reflexivity. Qed.
Lemma wait_ends slack d rounds : forall t, timed slack d t rounds -> t <= d -> (d - t) / recheck + 2 <= Z.of_nat (length rounds) -> wait statfs d rounds <> None.
Proof.
  pose proof recheck_pos as RP. induction rounds as [|[c r] rounds IH]; intros t T TD L.
  - cbn [length] in L. assert (0 <= (d - t) / recheck) by (apply Z.div_pos; lia). lia.
  - cbn [timed] in T. destruct T as (T1 & T2 & T3). cbn [wait]. destruct (statfs c); try discriminate. destruct (Z.leb_spec (d - r) 0) as [LD|LD]; [discriminate|].
    destruct (Z.le_gt_cases (d - r) recheck) as [M|M].
    + rewrite Z.min_l in T3 by lia. replace (r + (d - r)) with d in T3 by lia. destruct rounds as [|[c' r'] rounds].
      * cbn [length] in L. assert (0 <= (d - t) / recheck) by (apply Z.div_pos; lia). lia.
      * cbn [timed] in T3. cbn [wait]. destruct (statfs c'); try discriminate. destruct (Z.leb_spec (d - r') 0); [discriminate|lia].
    + rewrite Z.min_r in T3 by lia. apply (IH _ T3); [lia|]. cbn [length] in L.
      assert ((d - (r + recheck)) / recheck + 1 <= (d - t) / recheck); [|lia].
      replace (d - (r + recheck)) with (d - r + (-1) * recheck) by lia. rewrite Z.div_add by lia. assert ((d - r) / recheck <= (d - t) / recheck) by (apply Z.div_le_mono; lia). lia.
Qed.
Lemma wait_timely slack d : forall x t c r y, timed slack d t (x ++ (c, r) :: y) -> t <= d -> wait statfs d x = None -> t <= c <= d + slack /\ r <= d + 2 * slack.
Proof.
  pose proof recheck_pos as RP. induction x as [|[c' r'] x IH]; intros t c r y T TD W; cbn [app timed wait] in *.
  - lia.
  - destruct T as (T1 & T2 & T3). destruct (statfs c'); try discriminate. destruct (Z.leb_spec (d - r') 0); [discriminate|]. specialize (IH _ _ _ _ T3 ltac:(lia) W). lia.
Qed.
Lemma wait_notices slack d a b rounds : forall t w, timed slack d t rounds -> t <= a -> a + recheck + 2 * slack <= b -> b <= d -> (forall u, a <= u <= b -> statfs u = Nsfs) -> (forall u, t <= u < a -> statfs u <> Missing) ->
  wait statfs d rounds = Some w -> w = Ready.
Proof.
  pose proof recheck_pos as RP. intros t w T TA AB BD N M W.
  assert (forall t, timed slack d t rounds -> t <= a + recheck + slack -> (forall u, t <= u < a -> statfs u <> Missing) -> wait statfs d rounds = Some w -> w = Ready) as H; [|apply (H t); auto; destruct rounds as [|[c r] ?]; [discriminate|]; cbn in T; lia].
  clear t T TA M W. induction rounds as [|[c r] rounds IH]; intros t T TA M W; cbn [timed wait] in *; [discriminate|].
  destruct T as (T1 & T2 & T3). destruct (Z.lt_ge_cases c a) as [C|C].
  - destruct (statfs c) eqn:S; [congruence|exfalso; apply (M c); auto; lia|]. destruct (Z.leb_spec (d - r) 0); [lia|].
    apply (IH _ T3); [lia| |auto]. intros u U. apply M. lia.
  - rewrite (N c) in W by lia. congruence.
Qed.
End WAITING.
