From Verif Require Import Base Save_model Save_spec.
From Coq Require Import Lia.
Local Open Scope nat_scope.

Section GENERIC.
Context {A E R : Type} (op : E -> A -> A -> Prop) (records : A -> list R) (boot : option (list R) -> A -> Prop).
Notation step := (step op records boot).
Notation run := (run op records boot).
Notation st := (state A R).
Notation reach := (reach op records boot).
Lemma reach_refl s : reach s s. Proof. exists []. constructor. Qed.
Lemma reach_step s s' l s'' : reach s s' -> step s' l s'' -> reach s s''.
Proof. intros [t H] S. exists (t ++ [l]). econstructor; eassumption. Qed.
Lemma run_app s t s' t' s'' : run s t s' -> run s' t' s'' -> run s (t ++ t') s''.
Proof. intros H H'. induction H' as [|s1 t1 l s2 s3 H' IH S]; [rewrite app_nil_r; exact H|]. rewrite app_assoc. econstructor; [apply IH, H|exact S]. Qed.
Lemma reach_trans a b c : reach a b -> reach b c -> reach a c.
Proof. intros [t H] [t' H']. exists (t ++ t'). eapply run_app; eassumption. Qed.

Definition holding (p : pc R) : bool := match p with Idle | WantSave | Done _ => false | _ => true end.
Definition pending (p : pc R) : option (list R) := match p with Finish d | Rename d => Some d | _ => None end.
Definition excl (s : st) : Prop :=
  (forall j, holding (calls s j) = true -> saveMu s = Some j) /\
  (forall j d, calls s j = Encode d -> mu s = Some j /\ d = firstn (length d) (records (cache s))) /\
  (forall j, mu s = Some j -> exists d, calls s j = Encode d).
Lemma set_same (f : nat -> pc R) i p : set f i p i = p. Proof. unfold set. rewrite Nat.eqb_refl. reflexivity. Qed.
Lemma set_other (f : nat -> pc R) i p j : i <> j -> set f i p j = f j. Proof. unfold set. intros N. apply Nat.eqb_neq in N. rewrite N. reflexivity. Qed.
Lemma set_cases (f : nat -> pc R) i p j : (i = j /\ set f i p j = p) \/ (i <> j /\ set f i p j = f j).
Proof. destruct (Nat.eq_dec i j) as [<-|N]; [left; split; [reflexivity|apply set_same]|right; split; [exact N|apply set_other, N]]. Qed.
Lemma firstn_snoc (l d : list R) r : d = firstn (length d) l -> nth_error l (length d) = Some r -> d ++ [r] = firstn (length (d ++ [r])) l.
Proof.
  intros D N. rewrite app_length. cbn [length]. rewrite Nat.add_1_r. set (n := length d) in *. clearbody n. subst d. revert l N. induction n as [|n IH]; intros [|x l] N; try discriminate; cbn in *; [congruence|]. f_equal. apply IH, N.
Qed.
Ltac one X1 X2 X3 p i := split; [|split];
  [intros j J; match type of J with holding (set p i ?q j) = true => destruct (set_cases p i q j) as [[Ei Q]|[NE Q]]; rewrite Q in J; [subst j|] end; cbn in J; try discriminate; try reflexivity; try (apply X1; solve [assumption|rewrite_pc p i; reflexivity])
  |intros j d' J; match type of J with set p i ?q j = _ => destruct (set_cases p i q j) as [[Ei Q]|[NE Q]]; rewrite Q in J; [subst j|] end; try discriminate; try (exact (X2 j d' J))
  |intros j J; try discriminate; try (destruct (X3 j J) as [d' D']; exists d'; rewrite set_other; [exact D'|intros ->; congruence])]
with rewrite_pc p i := match goal with H : p i = _ |- _ => rewrite H end.
Lemma excl_step s l s' : excl s -> step s l s' -> excl s'.
Proof.
  intros (X1 & X2 & X3) S. destruct S as [e a c sm f p O|i a m sm f p I|i a m f p I|i a m sm f p I|i a sm f p I|i a m sm f p d r I N|i a m sm f p d I N|i a m sm f p d I|i a m sm f p d I|i a m sm f p I|i a m sm f p d I|i a m sm f p e I|a m sm f p c B]; unfold excl; cbn [cache mu saveMu file calls] in *.
  - split; [exact X1|]. split; [intros j d J; destruct (X2 j d J); discriminate|intros j J; discriminate].
  - one X1 X2 X3 p i. destruct (X3 j J) as [d D]. exists d. rewrite set_other; [exact D|]. intros ->. destruct I as [I|[e I]]; congruence.
  - one X1 X2 X3 p i. specialize (X1 j J). discriminate.
  - one X1 X2 X3 p i.
  - one X1 X2 X3 p i.
    + assert (d' = []) as -> by congruence. split; reflexivity.
    + destruct (X2 j d' J). discriminate.
    + exists []. assert (j = i) as -> by congruence. apply set_same.
  - one X1 X2 X3 p i.
    + assert (d' = d ++ [r]) as -> by congruence. destruct (X2 i d I) as [M D]. split; [exact M|]. apply firstn_snoc; assumption.
    + destruct (X3 j J) as [d1 D1]. destruct (set_cases p i (Encode (d ++ [r])) j) as [[<- Q]|[NE Q]]; rewrite Q; eauto.
  - one X1 X2 X3 p i. destruct (X2 i d I) as [M _], (X2 j d' J) as [M' _]. congruence.
  - one X1 X2 X3 p i.
  - one X1 X2 X3 p i.
  - one X1 X2 X3 p i.
    + apply X1. destruct I as [I|[[d I]|[d I]]]; rewrite I; reflexivity.
    + destruct (X3 j J) as [d' D']. exists d'. rewrite set_other; [exact D'|]. intros ->. destruct I as [I|[[d I]|[d I]]]; congruence.
  - one X1 X2 X3 p i. destruct (X2 i d I) as [M _], (X2 j d' J) as [M' _]. congruence.
  - one X1 X2 X3 p i. assert (L : holding (p i) = true) by (rewrite I; reflexivity). specialize (X1 i L) as Y. specialize (X1 j J). congruence.
  - split; [intros j J; discriminate|]. split; [intros j d J; discriminate|intros j J; discriminate].
Qed.
Lemma excl_run s t s' : excl s -> run s t s' -> excl s'.
Proof. intros X H. induction H as [|s t l s1 s2 H IH S]; [exact X|]. eapply excl_step; [apply IH, X|exact S]. Qed.
Lemma excl_start a f : excl (start a f).
Proof. split; [intros j J; discriminate|]. split; [intros j d J; discriminate|intros j J; discriminate]. Qed.
Lemma excl_reach a f s : reach (start a f) s -> excl s.
Proof. intros [t H]. eapply excl_run; [apply excl_start|exact H]. Qed.

(** What a finished encoding is *)
Lemma complete (l d : list R) : d = firstn (length d) l -> nth_error l (length d) = None -> d = l.
Proof. intros D N. apply nth_error_None in N. rewrite D. apply firstn_all2, N. Qed.
(** The content of a step's new pending file, or of the file itself *)
Lemma step_shape s l s' : excl s -> step s l s' ->
  (forall j c, pending (calls s' j) = Some c -> pending (calls s j) = Some c \/ (c = records (cache s') /\ saveMu s' = Some j)) /\
  (file s' = file s \/ exists i c, l = LSave i /\ pending (calls s i) = Some c /\ file s' = Some c /\ calls s' i = Leave false /\ saveMu s = Some i /\ forall j, pending (calls s' j) = None).
Proof.
  intros (X1 & X2 & X3) S. destruct S as [e a c sm f p O|i a m sm f p I|i a m f p I|i a m sm f p I|i a sm f p I|i a m sm f p d r I N|i a m sm f p d I N|i a m sm f p d I|i a m sm f p d I|i a m sm f p I|i a m sm f p d I|i a m sm f p e I|a m sm f p c B]; cbn [cache mu saveMu file calls] in *.
  all: try (split; [intros j c' J; match type of J with context [set ?p ?k ?q j] => destruct (set_cases p k q j) as [[Ei Q]|[NE Q]]; rewrite Q in J; [subst j; try discriminate J|left; exact J] end|left; reflexivity]).
  - split; auto.
  - right. cbn in J. destruct (X2 i d I) as [M D]. split; [rewrite <- (complete _ _ D N); congruence|]. apply X1. rewrite I. reflexivity.
  - left. rewrite I. exact J.
  - assert (H : holding (p i) = true) by (rewrite I; reflexivity). split.
    + intros j c' J. destruct (set_cases p i (Leave false) j) as [[Ei Q]|[NE Q]]; rewrite Q in J; [discriminate|left; exact J].
    + right. exists i, d. split; [reflexivity|]. split; [rewrite I; reflexivity|]. split; [reflexivity|]. split; [apply set_same|]. split; [apply X1, H|].
      intros j. destruct (set_cases p i (Leave false) j) as [[Ei Q]|[NE Q]]; rewrite Q; [reflexivity|]. destruct (pending (p j)) eqn:PJ; [|reflexivity]. exfalso.
      assert (HJ : holding (p j) = true) by (destruct (p j); try discriminate; reflexivity). specialize (X1 i H) as Y. specialize (X1 j HJ). congruence.
  - split; [intros j c' J; discriminate|left; reflexivity].
Qed.

(** ** Snapshots *)
Definition inv (b : st) (fb : option (list R)) (s : st) : Prop :=
  exists mf, reach b mf /\ reach mf s /\ ((file s = fb /\ mf = b) \/ snapshot_of records (file s) mf) /\
    forall j c, pending (calls s j) = Some c -> exists m, reach mf m /\ reach m s /\ c = records (cache m).
Lemma inv_step b fb s l s' : excl s -> inv b fb s -> step s l s' -> inv b fb s'.
Proof.
  intros X (mf & B & M & F & P) S. destruct (step_shape s l s' X S) as [SP [SF|(i & c & -> & PI & FC & _ & _ & NP)]].
  - exists mf. split; [exact B|]. split; [eapply reach_step; eassumption|]. split; [rewrite SF; exact F|]. intros j c J. destruct (SP j c J) as [J'|[-> _]].
    + destruct (P j c J') as (m & M1 & M2 & ->). exists m. split; [exact M1|]. split; [eapply reach_step; eassumption|reflexivity].
    + exists s'. split; [eapply reach_step; eassumption|]. split; [apply reach_refl|reflexivity].
  - destruct (P i c PI) as (m & M1 & M2 & ->). exists m. split; [eapply reach_trans; eassumption|]. split; [eapply reach_step; eassumption|]. split; [right; exact FC|]. intros j c J. rewrite NP in J. discriminate.
Qed.
Lemma inv_run b fb s t s' : excl s -> inv b fb s -> run s t s' -> inv b fb s'.
Proof. intros X I H. induction H as [|s t l s1 s2 H IH S]; [exact I|]. eapply inv_step; [eapply excl_run; eassumption|apply IH; assumption|exact S]. Qed.
Lemma inv_start a f s : reach (start a f) s -> inv (start a f) f s.
Proof. intros [t H]. eapply inv_run; [apply excl_start| |exact H]. exists (start a f). split; [apply reach_refl|]. split; [apply reach_refl|]. split; [left; auto|]. intros j c J. discriminate. Qed.
Theorem snapshot a f s : reach (start a f) s -> file s = f \/ exists m, reach (start a f) m /\ reach m s /\ snapshot_of records (file s) m.
Proof. intros H. destruct (inv_start a f s H) as (mf & B & M & [[F _]|F] & _); [left; exact F|right; eauto]. Qed.
Theorem newer a f s1 s2 : reach (start a f) s1 -> reach s1 s2 -> file s2 = file s1 \/
  exists m2, reach m2 s2 /\ snapshot_of records (file s2) m2 /\ (file s1 = f \/ exists m1, reach (start a f) m1 /\ reach m1 s1 /\ reach m1 m2 /\ snapshot_of records (file s1) m1).
Proof.
  intros H1 [t H2]. pose proof (excl_reach _ _ _ H1) as X. destruct (inv_start a f s1 H1) as (mf & B & M & F & P).
  assert (I : inv mf (file s1) s1) by (exists mf; split; [apply reach_refl|]; split; [exact M|]; split; [left; auto|exact P]).
  destruct (inv_run _ _ _ _ _ X I H2) as (m2 & B2 & M2 & [[F2 _]|F2] & _); [left; exact F2|]. right. exists m2. split; [exact M2|]. split; [exact F2|].
  destruct F as [[F _]|F]; [left; exact F|]. right. exists mf. auto.
Qed.

(** ** A call that returns without an error *)
Definition fresh (s1 : st) (c : list R) (s : st) : Prop := exists m, reach s1 m /\ reach m s /\ c = records (cache m).
Lemma fresh_step s1 c s l s' : fresh s1 c s -> step s l s' -> fresh s1 c s'.
Proof. intros (m & M1 & M2 & ->) S. exists m. split; [exact M1|]. split; [eapply reach_step; eassumption|reflexivity]. Qed.
Definition kinv (i : nat) (s1 s : st) : Prop :=
  reach s1 s /\
  (((calls s i <> Leave false /\ calls s i <> Done false) /\ (forall c, pending (calls s i) = Some c -> fresh s1 c s)) \/
   ((exists c, file s = Some c /\ fresh s1 c s) /\ forall j c, pending (calls s j) = Some c -> fresh s1 c s)).
Lemma commits s l s' i : excl s -> step s l s' -> calls s' i = Leave false \/ calls s' i = Done false ->
  calls s i = Leave false \/ calls s i = Done false \/ exists c, pending (calls s i) = Some c /\ file s' = Some c /\ forall j, pending (calls s' j) = None.
Proof.
  intros X S H. pose proof (step_shape s l s' X S) as [_ SF]. destruct S as [e a c sm f p O|k a m sm f p I|k a m f p I|k a m sm f p I|k a sm f p I|k a m sm f p d r I N|k a m sm f p d I N|k a m sm f p d I|k a m sm f p d I|k a m sm f p I|k a m sm f p d I|k a m sm f p e I|a m sm f p c B]; cbn [calls file] in *; try tauto;
    try (match type of H with context [set ?p ?k ?q i] => destruct (set_cases p k q i) as [[<- Q]|[NE Q]]; rewrite Q in H end; try tauto; try (destruct H; discriminate)).
  - right. right. exists d. rewrite I. split; [reflexivity|]. split; [reflexivity|]. destruct X as (X1 & _). cbn [calls saveMu] in X1. assert (HK : holding (p k) = true) by (rewrite I; reflexivity).
    intros j. destruct (set_cases p k (Leave false) j) as [[Ei W]|[NE W]]; rewrite W; [reflexivity|]. destruct (pending (p j)) eqn:PJ; [|reflexivity]. exfalso.
    assert (HJ : holding (p j) = true) by (destruct (p j); try discriminate; reflexivity). specialize (X1 k HK) as Y. specialize (X1 j HJ). congruence.
  - left. destruct H; [discriminate|]. congruence.
  - destruct H; discriminate.
Qed.
Lemma kinv_step i s1 s l s' : excl s -> kinv i s1 s -> step s l s' -> kinv i s1 s'.
Proof.
  intros X (B & K) S. split; [eapply reach_step; eassumption|]. assert (B' : reach s1 s') by (eapply reach_step; eassumption). destruct (step_shape s l s' X S) as [SP SF].
  assert (NEW : forall j c, c = records (cache s') /\ saveMu s' = Some j -> fresh s1 c s') by (intros j c [-> _]; exists s'; split; [exact B'|]; split; [apply reach_refl|reflexivity]).
  destruct K as [[[N1 N2] P]|[(c & FC & FF) P]].
  - assert (D : (calls s' i = Leave false \/ calls s' i = Done false) \/ (calls s' i <> Leave false /\ calls s' i <> Done false)) by (destruct (calls s' i) as [| | | | | | |[]|[]]; try (left; tauto); right; split; discriminate).
    destruct D as [D|D].
    + right. destruct (commits s l s' i X S D) as [Q|[Q|(c & PC & FC & NP)]]; [contradiction|contradiction|]. split; [exists c; split; [exact FC|eapply fresh_step; [apply P, PC|exact S]]|]. intros j c' J. rewrite NP in J. discriminate.
    + left. split; [exact D|]. intros c J. destruct (SP i c J) as [J'|J']; [eapply fresh_step; [apply P, J'|exact S]|eapply NEW, J'].
  - right. split.
    + destruct SF as [SF|(k & c' & _ & PK & FC' & _)]; [exists c; rewrite SF; split; [exact FC|eapply fresh_step; eassumption]|]. exists c'. split; [exact FC'|]. eapply fresh_step; [apply (P k), PK|exact S].
    + intros j c' J. destruct (SP j c' J) as [J'|J']; [eapply fresh_step; [eapply P, J'|exact S]|eapply NEW, J'].
Qed.
Theorem returned a f i s1 s2 : reach (start a f) s1 -> reach s1 s2 -> calls s1 i = WantSave -> calls s2 i = Done false ->
  exists m, reach s1 m /\ reach m s2 /\ snapshot_of records (file s2) m.
Proof.
  intros H1 [t H2] W D. assert (K : kinv i s1 s2).
  { pose proof (excl_reach _ _ _ H1) as X. induction H2 as [|s t l s' s'' H2 IH S].
    - split; [apply reach_refl|]. left. rewrite W. repeat split; try discriminate.
    - clear D. eapply kinv_step; [eapply excl_run; eassumption| |exact S]. 
      assert (G : forall s', run s t s' -> kinv i s s'); [|apply G, H2]. clear - X W. intros s' H. induction H as [|s t l s1 s2 H IH S].
      + split; [apply reach_refl|]. left. rewrite W. repeat split; try discriminate.
      + eapply kinv_step; [eapply excl_run; eassumption|apply IH; assumption|exact S]. }
  destruct K as (_ & [[[_ N] _]|[(c & F & (m & M1 & M2 & ->)) _]]); [contradiction|]. exists m. auto.
Qed.

(** ** Calls can end *)
Lemma encode_all i : forall n a m sm f p d, n = length (records a) - length d -> p i = Encode d -> d = firstn (length d) (records a) ->
  exists p', reach (State a m sm f p) (State a None sm f p') /\ p' i = Finish (records a) /\ forall j, j <> i -> p' j = p j.
Proof.
  induction n as [|n IH]; intros a m sm f p d N I D.
  - assert (NE : nth_error (records a) (length d) = None) by (apply nth_error_None; lia). exists (set p i (Finish d)). split; [eapply reach_step; [apply reach_refl|apply s_encoded with (i := i); assumption]|].
    split; [rewrite set_same, (complete _ _ D NE); reflexivity|]. intros j J. apply set_other. congruence.
  - destruct (nth_error (records a) (length d)) as [r|] eqn:NE; [|apply nth_error_None in NE; lia].
    destruct (IH a m sm f (set p i (Encode (d ++ [r]))) (d ++ [r])) as (p' & H & P & Q); [rewrite app_length; cbn; lia|apply set_same|apply firstn_snoc; assumption|].
    exists p'. split; [eapply reach_trans; [|exact H]; eapply reach_step; [apply reach_refl|eapply s_record; eassumption]|]. split; [exact P|]. intros j J. rewrite Q by exact J. apply set_other. congruence.
Qed.
Lemma one_step s l s' : step s l s' -> reach s s'.
Proof. intros S. eapply reach_step; [apply reach_refl|exact S]. Qed.
(** From inside the call to its end *)
Lemma from_rename i a m sm f p d : p i = Rename d -> exists p', reach (State a m sm f p) (State a m None (Some d) p') /\ p' i = Done false /\ forall j, j <> i -> p' j = p j.
Proof.
  intros I. exists (set (set p i (Leave false)) i (Done false)). split; [|split; [apply set_same|intros j J; rewrite !set_other by congruence; reflexivity]].
  eapply reach_trans; [apply one_step with (l := LSave i), s_rename, I|]. apply one_step with (l := LSave i), s_leave, set_same.
Qed.
Lemma from_finish i a m sm f p d : p i = Finish d -> exists p', reach (State a m sm f p) (State a m None (Some d) p') /\ p' i = Done false /\ forall j, j <> i -> p' j = p j.
Proof.
  intros I. destruct (from_rename i a m sm f (set p i (Rename d)) d (set_same _ _ _)) as (p' & H & P & Q). exists p'. split; [eapply reach_trans; [apply one_step with (l := LSave i), s_finish, I|exact H]|].
  split; [exact P|]. intros j J. rewrite Q by exact J. apply set_other. congruence.
Qed.
Lemma from_encode i a m sm f p d : p i = Encode d -> d = firstn (length d) (records a) -> exists p', reach (State a m sm f p) (State a None None (Some (records a)) p') /\ p' i = Done false /\ forall j, j <> i -> p' j = p j.
Proof.
  intros I D. destruct (encode_all i _ a m sm f p d eq_refl I D) as (p1 & H1 & P1 & Q1). destruct (from_finish i a None sm f p1 _ P1) as (p2 & H2 & P2 & Q2). exists p2. split; [eapply reach_trans; eassumption|]. split; [exact P2|].
  intros j J. rewrite Q2, Q1 by exact J. reflexivity.
Qed.
Lemma from_want_mu i a sm f p : p i = WantMu -> exists p', reach (State a None sm f p) (State a None None (Some (records a)) p') /\ p' i = Done false /\ forall j, j <> i -> p' j = p j.
Proof.
  intros I. destruct (from_encode i a (Some i) sm f (set p i (Encode [])) [] (set_same _ _ _) eq_refl) as (p' & H & P & Q). exists p'. split; [eapply reach_trans; [apply one_step with (l := LSave i), s_lock, I|exact H]|].
  split; [exact P|]. intros j J. rewrite Q by exact J. apply set_other. congruence.
Qed.
Lemma from_open i a sm f p : p i = Open -> exists p', reach (State a None sm f p) (State a None None (Some (records a)) p') /\ p' i = Done false /\ forall j, j <> i -> p' j = p j.
Proof.
  intros I. destruct (from_want_mu i a sm f (set p i WantMu) (set_same _ _ _)) as (p' & H & P & Q). exists p'. split; [eapply reach_trans; [apply one_step with (l := LSave i), s_open, I|exact H]|].
  split; [exact P|]. intros j J. rewrite Q by exact J. apply set_other. congruence.
Qed.
Lemma from_want_save i a f p : p i = WantSave -> exists p', reach (State a None None f p) (State a None None (Some (records a)) p') /\ p' i = Done false /\ forall j, j <> i -> p' j = p j.
Proof.
  intros I. destruct (from_open i a (Some i) f (set p i Open) (set_same _ _ _)) as (p' & H & P & Q). exists p'. split; [eapply reach_trans; [apply one_step with (l := LSave i), s_save, I|exact H]|].
  split; [exact P|]. intros j J. rewrite Q by exact J. apply set_other. congruence.
Qed.
Definition held (s : st) : Prop := forall k, saveMu s = Some k -> holding (calls s k) = true.
Lemma held_step s l s' : excl s -> held s -> step s l s' -> held s'.
Proof.
  intros (X1 & _) H S. unfold held in *. destruct S as [e a c sm f p O|i a m sm f p I|i a m f p I|i a m sm f p I|i a sm f p I|i a m sm f p d r I N|i a m sm f p d I N|i a m sm f p d I|i a m sm f p d I|i a m sm f p I|i a m sm f p d I|i a m sm f p e I|a m sm f p c B]; cbn [saveMu calls] in *; intros k K; try discriminate; try (apply H, K);
    try (match goal with |- context [set ?p ?i ?q k] => destruct (set_cases p i q k) as [[<- Q]|[NE Q]]; rewrite Q end; try reflexivity; try (apply H, K)).
  - specialize (H i K). destruct I as [I|[e I]]; rewrite I in H; discriminate.
  - congruence.
Qed.
Lemma held_reach a f s : reach (start a f) s -> held s.
Proof. intros [t H]. remember (start a f) as s0 eqn:E0. induction H as [|s t l s1 s2 H IH S]; [subst; intros k K; discriminate|]. eapply held_step; [eapply excl_run; [|exact H]; subst; apply excl_start|apply IH, E0|exact S]. Qed.
Lemma released s : excl s -> held s -> exists f p, reach s (State (cache s) None None f p) /\ forall j, holding (calls s j) = false -> p j = calls s j.
Proof.
  intros (X1 & X2 & X3) HD. destruct s as [a m sm f p]. unfold held in HD. cbn [cache mu saveMu calls] in *. 
  assert (M0 : m = None \/ exists k d, sm = Some k /\ p k = Encode d).
  { destruct m as [k|]; [|left; reflexivity]. destruct (X3 k eq_refl) as [d D]. right. exists k, d. split; [apply X1; rewrite D; reflexivity|exact D]. }
  assert (K : forall k, holding (p k) = true -> (exists f' p', reach (State a m sm f p) (State a None None f' p') /\ forall j, j <> k -> p' j = p j) -> exists f' p', reach (State a m sm f p) (State a None None f' p') /\ forall j, holding (p j) = false -> p' j = p j).
  { intros k HK (f' & p' & H & Q). exists f', p'. split; [exact H|]. intros j J. apply Q. congruence. }
  destruct sm as [k|].
  - specialize (HD k eq_refl) as HK. apply (K k HK). destruct (p k) as [| | | |d|d|d|e|e] eqn:PK; try discriminate.
    + destruct M0 as [->|(k' & d & [= ->] & D)]; [|congruence]. destruct (from_open k a (Some k) f p PK) as (p' & H & _ & Q). eauto.
    + destruct M0 as [->|(k' & d & [= ->] & D)]; [|congruence]. destruct (from_want_mu k a (Some k) f p PK) as (p' & H & _ & Q). eauto.
    + destruct (X2 k d PK) as [_ D]. destruct (from_encode k a m (Some k) f p d PK D) as (p' & H & _ & Q). eauto.
    + destruct M0 as [->|(k' & d' & [= ->] & D)]; [|congruence]. destruct (from_finish k a None (Some k) f p d PK) as (p' & H & _ & Q). eauto.
    + destruct M0 as [->|(k' & d' & [= ->] & D)]; [|congruence]. destruct (from_rename k a None (Some k) f p d PK) as (p' & H & _ & Q). eauto.
    + destruct M0 as [->|(k' & d' & [= ->] & D)]; [|congruence]. exists f, (set p k (Done e)). split; [apply one_step with (l := LSave k), s_leave, PK|]. intros j J. apply set_other. congruence.
  - destruct M0 as [->|(k & d & [= ] & _)]. exists f, p. split; [apply reach_refl|reflexivity].
Qed.
Theorem can_end a f i s : reach (start a f) s -> calls s i = WantSave ->
  exists s', reach s s' /\ calls s' i = Done false /\ cache s' = cache s /\ snapshot_of records (file s') s.
Proof.
  intros H W. destruct (released s (excl_reach _ _ _ H) (held_reach _ _ _ H)) as (f1 & p1 & H1 & Q1). assert (P1 : p1 i = WantSave) by (rewrite Q1, W; [reflexivity|rewrite W; reflexivity]).
  destruct (from_want_save i (cache s) f1 p1 P1) as (p2 & H2 & P2 & _). exists (State (cache s) None None (Some (records (cache s))) p2). split; [eapply reach_trans; eassumption|]. split; [exact P2|]. split; reflexivity.
Qed.
(** The cache is not shut for long: whenever it is, the call that holds it can let go on its own. *)
Theorem unlocks a f s k : reach (start a f) s -> mu s = Some k -> exists s', reach s s' /\ mu s' = None /\ cache s' = cache s.
Proof. intros H M. destruct (released s (excl_reach _ _ _ H) (held_reach _ _ _ H)) as (f1 & p1 & H1 & _). eexists. split; [exact H1|]. split; reflexivity. Qed.

(** ** What holds of the cache holds of the file *)
Section PRESERVE.
Context (evok : E -> Prop) (good : list E -> A -> Prop) (goodf : list E -> list R -> Prop).
Definition evs (t : list (label E)) : list E := flat_map (fun l => match l with LOp e => [e] | _ => [] end) t.
Hypothesis g_op : forall T a e a', good T a -> evok e -> op e a a' -> good (T ++ [e]) a'.
Hypothesis g_rec : forall T a, good T a -> goodf T (records a).
Hypothesis g_more : forall T e d, goodf T d -> goodf (T ++ [e]) d.
Hypothesis g_boot : forall T f a, goodf T f -> boot (Some f) a -> good T a.
Hypothesis g_none : forall T a, boot None a -> good T a.
Lemma preserved a0 t s : good [] a0 -> run (start a0 None) t s -> Forall evok (evs t) ->
  good (evs t) (cache s) /\ (forall d, file s = Some d -> goodf (evs t) d) /\ (forall i d, pending (calls s i) = Some d -> goodf (evs t) d).
Proof.
  intros G0 H. remember (start a0 None) as s0 eqn:E0. induction H as [|s t l s1 s2 H IH S]; intros EV; [subst; cbn; split; [exact G0|]; split; intros; discriminate|].
  assert (X : excl s1) by (eapply excl_run; [|exact H]; subst; apply excl_start). unfold evs in *. rewrite flat_map_app in *. cbn [flat_map] in *. rewrite app_nil_r in *. apply Forall_app in EV. destruct EV as [EV1 EV2]. specialize (IH E0 EV1). destruct IH as (G & GF & GP).
  destruct (step_shape s1 l s2 X S) as [SP SF].
  set (T := flat_map _ t) in *. assert (MORE : forall d, goodf T d -> goodf (T ++ match l with LOp e => [e] | _ => [] end) d) by (intros d D; destruct l; [apply g_more, D| |]; rewrite app_nil_r; exact D).
  assert (GC : good (T ++ match l with LOp e => [e] | _ => [] end) (cache s2)).
  { destruct S; cbn [cache] in *; try (rewrite app_nil_r; exact G); [eapply g_op; [exact G|apply (Forall_inv EV2)|assumption]|]. rewrite app_nil_r. destruct f as [f|]; [eapply g_boot; [apply GF; reflexivity|assumption]|apply g_none; assumption]. }
  split; [exact GC|]. split.
  - intros d D. destruct SF as [SF|(i & c & -> & PI & FC & _)]; [rewrite SF in D; apply MORE, GF, D|]. assert (d = c) as -> by congruence. apply MORE. eapply GP, PI.
  - intros i d D. destruct (SP i d D) as [D'|[-> _]]; [apply MORE; eapply GP, D'|]. apply g_rec, GC.
Qed.
End PRESERVE.
End GENERIC.
