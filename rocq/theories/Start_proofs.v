(** The loop of start (main.go:256-281) for any way to make elements that looks only at the elements it refers to *)
From Verif Require Import Base Config_model Config_spec Config_proofs.
From Verif Require Import Start_model.
From Coq Require Import Relations.
Local Open Scope nat_scope.

Lemma get_cons {A} a (o : A) m r : get r ((a, o) :: m) = if String.eqb a r then Some o else get r m.
Proof. reflexivity. Qed.

Section LOOP.
Variables CA Cert : Type.
Notation node := (node CA Cert).
Variable make : string -> table node -> option node.
Variable c : config.
Variable E0 : list edge.
Variable m0 : table node.
Hypothesis HN : NoDup (ids c).
Hypothesis HE : ~ In ""%string (ids c).
Hypothesis H0 : forall a b, In (a, b) E0 <-> refers c a b.
Hypothesis HV : Forall (in_V (ids c)) E0.
Hypothesis HA : acyclic E0.
Hypothesis Hm : get "" m0 = None.
Hypothesis local : forall a v m m', In (a, v) (nodes c) -> (forall r, In r (refs v) -> get r m = get r m') -> make a m = make a m'.

Record inv (V : list string) (E : list edge) (m : table node) (built : list string) : Prop := {
  i_perm : Permutation (V ++ built) (ids c);
  i_E : forall a b, In (a, b) E <-> In (a, b) E0 /\ In a V /\ In b V;
  i_built : forall a, In a built -> exists o, get a m = Some o /\ make a m = Some o;
  i_keys : forall r, ~ In r built -> get r m = get r m0;
  i_order : forall b1 a b2, built = b1 ++ a :: b2 -> forall r, refers c a r -> In r b1 }.
Notation ready := (ready c).
(** A state in which an element cannot be made although all that it refers to is there *)
Definition bad : Prop := exists a m, In a (ids c) /\ (forall r, refers c a r -> get r m <> None) /\ get "" m = None /\ make a m = None.

Lemma inv_built_in V E m b a : inv V E m b -> In a b -> In a (ids c).
Proof. intros I H. eapply Permutation_in; [apply (i_perm _ _ _ _ I)|]. apply in_or_app. auto. Qed.
Lemma inv_V_in V E m b a : inv V E m b -> In a V -> In a (ids c).
Proof. intros I H. eapply Permutation_in; [apply (i_perm _ _ _ _ I)|]. apply in_or_app. auto. Qed.
Lemma inv_nodup V E m b : inv V E m b -> NoDup (V ++ b).
Proof. intros I. eapply Permutation_NoDup; [symmetry; apply (i_perm _ _ _ _ I)|exact HN]. Qed.
Lemma inv_none V E m b : inv V E m b -> get "" m = None.
Proof. intros I. rewrite (i_keys _ _ _ _ I); [exact Hm|]. intros H. exact (HE (inv_built_in _ _ _ _ _ I H)). Qed.

Lemma inv_step V E m b a o : inv V E m b -> In a V -> ready b a -> make a m = Some o ->
  inv (filter (fun x => negb (String.eqb x a)) V) (filter (fun e => negb (String.eqb (fst e) a) && negb (String.eqb (snd e) a)) E) ((a, o) :: m) (b ++ [a]).
Proof.
  intros I IV R IO. pose proof (inv_nodup _ _ _ _ I) as N. assert (NB : ~ In a b) by exact (nodup_app_not _ _ _ N IV).
  assert (AE : a <> ""%string) by (intros ->; exact (HE (inv_V_in _ _ _ _ _ I IV))).
  assert (ST : forall x, In x (ids c) -> ready b x -> make x ((a, o) :: m) = make x m).
  { intros x IX RX. destruct (in_node c x IX) as [v J]. apply (local x v); [exact J|]. intros r RR. rewrite get_cons. destruct (String.eqb_spec a r) as [<-|_]; [|reflexivity].
    exfalso. apply NB, RX. exists v. auto. }
  constructor.
  - rewrite <- (i_perm _ _ _ _ I). rewrite (remove_perm a V (nodup_app_l _ _ N) IV) at 2. cbn [app]. rewrite app_assoc, <- Permutation_cons_append. reflexivity.
  - intros x y. rewrite !filter_In, (i_E _ _ _ _ I). cbn [fst snd]. rewrite andb_true_iff. tauto.
  - intros x J. apply in_app_or in J. destruct J as [J|[<-|[]]].
    + destruct (i_built _ _ _ _ I x J) as (ox & G & M). exists ox. rewrite get_cons. destruct (String.eqb_spec a x) as [->|_]; [contradiction|]. split; [exact G|]. rewrite ST; [exact M|exact (inv_built_in _ _ _ _ _ I J)|].
      intros r RR. apply in_split in J. destruct J as (b1 & b2 & ->). apply in_or_app. left. exact (i_order _ _ _ _ I b1 x b2 eq_refl r RR).
    + exists o. rewrite get_cons, String.eqb_refl. split; [reflexivity|]. rewrite ST; [exact IO|exact (inv_V_in _ _ _ _ _ I IV)|exact R].
  - intros r NR. rewrite get_cons. destruct (String.eqb_spec a r) as [->|_]; [exfalso; apply NR, in_or_app; right; left; reflexivity|]. apply (i_keys _ _ _ _ I). intros H. apply NR, in_or_app. auto.
  - intros b1 x b2 Q r RR. apply split_last in Q. destruct Q as [(-> & -> & ->)|(b2' & -> & ->)]; [exact (R r RR)|]. exact (i_order _ _ _ _ I b1 x b2' eq_refl r RR).
Qed.
Lemma round_spec : forall leaves V E m b, inv V E m b -> NoDup leaves -> incl leaves V -> Forall (ready b) leaves ->
  match round CA Cert make leaves V E m b with None => bad | Some (V', E', m', b') => inv V' E' m' b' /\ b' = b ++ leaves end.
Proof.
  induction leaves as [|a leaves IH]; intros V E m b I N S R; cbn [round]; [rewrite app_nil_r; auto|].
  assert (IV : In a V) by (apply S; left; reflexivity). inversion N as [|? ? N1 N2]; subst. apply Forall_cons_iff in R. destruct R as [R1 R2].
  destruct (make a m) as [o|] eqn:O.
  - pose proof (inv_step _ _ _ _ _ _ I IV R1 O) as I'. apply IH in I'; [|exact N2| |].
    + destruct (round _ _ _ _ _ _ _) as [[[[V' E'] m'] b']|]; [|exact I']. destruct I' as [I' ->]. split; [exact I'|]. rewrite <- app_assoc. reflexivity.
    + intros x X. apply filter_In. split; [apply S; right; exact X|]. apply negb_true_iff, String.eqb_neq. intros ->. contradiction.
    + eapply Forall_impl; [|exact R2]. intros x RX r RR. apply in_or_app. left. exact (RX r RR).
  - exists a, m. split; [exact (inv_V_in _ _ _ _ _ I IV)|]. split; [|split; [exact (inv_none _ _ _ _ I)|exact O]].
    intros r RR. destruct (i_built _ _ _ _ I r (R1 r RR)) as (x & G & _). congruence.
Qed.
Variable ord : nat -> list string -> list string.
Hypothesis HO : any_order ord.
Lemma rounds_spec : forall fuel V E m b, length V <= fuel -> inv V E m b ->
  match rounds CA Cert make ord fuel V E m b with None => False | Some None => bad | Some (Some (m', b')) => exists E', inv [] E' m' b' end.
Proof.
  induction fuel as [|fuel IH]; intros V E m b L I.
  - destruct V; [cbn; eauto|cbn in L; lia].
  - destruct V as [|x V]; [cbn; eauto|]. cbn [rounds]. set (LV := ord (S fuel) (filter (leaf E) (x :: V))).
    pose proof (HO (S fuel) (filter (leaf E) (x :: V))) as P. fold LV in P. pose proof (inv_nodup _ _ _ _ I) as N.
    assert (NL : LV <> []).
    { intros Q. rewrite Q in P. apply Permutation_nil in P. revert P. apply has_leaf; [discriminate| |].
      - apply Forall_forall. intros [a b'] J. apply (i_E _ _ _ _ I) in J. split; apply J.
      - intros a W. apply (HA a). revert W. apply way_mono. intros [a' b'] J. apply (i_E _ _ _ _ I) in J. apply J. }
    assert (Y1 : NoDup LV) by (eapply Permutation_NoDup; [symmetry; exact P|]; apply NoDup_filter; exact (nodup_app_l _ _ N)).
    assert (Y2 : incl LV (x :: V)) by (intros y Y; apply (Permutation_in _ P) in Y; apply filter_In in Y; apply Y).
    assert (Y3 : Forall (ready b) LV).
    { apply Forall_forall. intros y Y r RR. apply (Permutation_in _ P) in Y. apply filter_In in Y. destruct Y as [Y LE]. assert (J : In (y, r) E0) by (apply H0, RR). rewrite Forall_forall in HV. destruct (HV _ J) as [_ K]. cbn in K.
      apply (Permutation_in _ (Permutation_sym (i_perm _ _ _ _ I))), in_app_or in K. destruct K as [K|K]; [|exact K]. exfalso. rewrite leaf_spec in LE. apply (LE r), (i_E _ _ _ _ I). auto. }
    pose proof (round_spec LV (x :: V) E m b I Y1 Y2 Y3) as R. destruct (round _ _ _ _ _ _ _) as [[[[V' E'] m'] b']|]; [|exact R].
    destruct R as [I' ->]. apply IH; [|exact I']. pose proof (Permutation_length (i_perm _ _ _ _ I)) as A1. pose proof (Permutation_length (i_perm _ _ _ _ I')) as A2. rewrite !app_length in *. assert (0 < length LV) by (destruct LV; [contradiction|cbn; lia]). lia.
Qed.
Lemma inv_start : inv (ids c) E0 m0 [].
Proof.
  constructor.
  - rewrite app_nil_r. reflexivity.
  - intros a b. split; [|intros H; apply H]. intros I. split; [exact I|]. rewrite Forall_forall in HV. exact (HV _ I).
  - intros a [].
  - reflexivity.
  - intros b1 a b2 Q. destruct b1; discriminate Q.
Qed.
(** The end of the loop *)
Lemma loop_spec :
  match rounds CA Cert make ord (length (ids c)) (ids c) E0 m0 [] with
  | None => False
  | Some None => bad
  | Some (Some (m, built)) => Permutation built (ids c) /\ (forall a, In a (ids c) -> exists o, get a m = Some o /\ make a m = Some o) /\
      (forall r, ~ In r (ids c) -> get r m = get r m0) /\ (forall b1 a b2, built = b1 ++ a :: b2 -> forall r, refers c a r -> In r b1)
  end.
Proof.
  pose proof (rounds_spec (length (ids c)) (ids c) E0 m0 [] (le_n _) inv_start) as R. destruct (rounds _ _ _ _ _ _ _ _) as [[[m b]|]|]; [|exact R|exact R].
  destruct R as [E' I]. assert (P : Permutation b (ids c)) by (rewrite <- (i_perm _ _ _ _ I); reflexivity). split; [exact P|]. split; [|split; [|exact (i_order _ _ _ _ I)]].
  - intros a IA. apply (i_built _ _ _ _ I). exact (Permutation_in _ (Permutation_sym P) IA).
  - intros r NR. apply (i_keys _ _ _ _ I). intros IR. apply NR. exact (Permutation_in _ P IR).
Qed.
End LOOP.

(** Two tables whose elements come from the tables themselves are equal *)
Section UNIQUE.
Variables CA Cert : Type.
Notation node := (node CA Cert).
Variable make : string -> table node -> option node.
Variable c : config.
Hypothesis local : forall a v m m', In (a, v) (nodes c) -> (forall r, In r (refs v) -> get r m = get r m') -> make a m = make a m'.
Lemma unique (m1 m2 : table node) built : get "" m1 = get "" m2 -> Permutation built (ids c) -> (forall b1 a b2, built = b1 ++ a :: b2 -> forall r, refers c a r -> In r b1) ->
  (forall a, In a (ids c) -> exists o, get a m1 = Some o /\ make a m1 = Some o) -> (forall a, In a (ids c) -> exists o, get a m2 = Some o /\ make a m2 = Some o) ->
  forall a, In a (ids c) -> get a m1 = get a m2.
Proof.
  intros N P O F1 F2 a IA. apply (Permutation_in _ (Permutation_sym P)) in IA.
  assert (Q : forall n b1 a b2, length b1 < n -> built = b1 ++ a :: b2 -> get a m1 = get a m2).
  { induction n as [|n IH]; intros b1 x b2 L Q; [lia|]. assert (IX : In x (ids c)) by (apply (Permutation_in _ P); rewrite Q; apply in_or_app; right; left; reflexivity).
    destruct (F1 x IX) as (o1 & G1 & M1), (F2 x IX) as (o2 & G2 & M2). destruct (in_node c x IX) as [v J].
    assert (E : make x m1 = make x m2); [|congruence]. apply (local x v); [exact J|]. intros r RR. destruct (string_dec r "") as [->|D]; [exact N|].
    assert (IR : In r b1) by (apply (O b1 x b2 Q); exists v; auto). apply in_split in IR. destruct IR as (l1 & l2 & ->). apply (IH l1 r (l2 ++ x :: b2)).
    - rewrite app_length in L. cbn in L. lia.
    - rewrite Q, <- app_assoc. reflexivity. }
  apply in_split in IA. destruct IA as (b1 & b2 & E). exact (Q (S (length b1)) b1 a b2 (Nat.lt_succ_diag_r _) E).
Qed.
End UNIQUE.
