From Verif Require Import Base RunNs_model RunNs_spec.
Local Open Scope nat_scope.

Lemma upd_same {A} f t (x : A) : upd f t x t = x.
Proof. unfold upd. rewrite Nat.eqb_refl. reflexivity. Qed.
Lemma upd_other {A} f t (x : A) u : u <> t -> upd f t x u = f u.
Proof. unfold upd. intros N. destruct (Nat.eqb_spec u t); [congruence|reflexivity]. Qed.
Ltac upds := repeat match goal with
  | |- context [upd _ ?t _ ?t] => rewrite upd_same
  | H : context [upd _ ?t _ ?t] |- _ => rewrite upd_same in H
  | N : ?u <> ?t |- context [upd _ ?t _ ?u] => rewrite (upd_other _ t _ u N)
  | N : ?u <> ?t, H : context [upd _ ?t _ ?u] |- _ => rewrite (upd_other _ t _ u N) in H
  end.

(** Holds in every run *)
Definition fds_of (p : phase) : nat := match p with Idle | Opening _ => 0 | Target _ _ => 1 | _ => 2 end.
Definition base_inv (s : nstate) : Prop :=
  forall th, s_fds s th = fds_of (s_phase s th) /\
    (forall t o, s_phase s th = Inside t o -> s_ns s th = t) /\ (forall t o r, s_phase s th = Leaving t o r -> s_ns s th = t).
Lemma base_step s a s' : base_inv s -> nstep s a = Some s' -> base_inv s'.
Proof.
  intros I S th. unfold nstep in S. destruct a as [u t|u ok].
  - destruct (s_phase s u) eqn:P; try discriminate. injection S as <-. cbn. destruct (Nat.eq_dec th u) as [->|N]; upds.
    + destruct (I u) as (F & _). rewrite P in F. cbn in *. repeat split; [exact F|discriminate|discriminate].
    + apply I.
  - destruct (I u) as (F & I1 & I2). destruct (s_phase s u) as [|t|t o|t o|t o|t o r] eqn:P; [discriminate| | | | |];
      try (destruct ok); injection S as <-; cbn; (destruct (Nat.eq_dec th u) as [->|N]; upds; [cbn in *|apply I]);
      repeat split; try discriminate; try lia; try (intros t' o' E; injection E as <- <-; auto); try (intros t' o' r' E; injection E as <- <- <-; auto).
    all: exact (I1 t o eq_refl).

Qed.
Lemma base_init : base_inv ninit.
Proof. intros th. cbn. repeat split; discriminate. Qed.
Lemma base_runs l : forall s s', base_inv s -> nruns s l = Some s' -> base_inv s'.
Proof.
  induction l as [|a l IH]; intros s s' I R; cbn in R; [injection R as <-; exact I|].
  destruct (nstep s a) as [q|] eqn:S; [|discriminate]. exact (IH q s' (base_step s a q I S) R).
Qed.
(** The function runs in the target namespace, and only there *)
Lemma fn_in_target l s th ok s' : nruns ninit l = Some s -> nstep s (Step th ok) = Some s' -> s_log s' <> s_log s ->
  exists t o, s_phase s th = Inside t o /\ s_log s' = (th, t) :: s_log s.
Proof.
  intros R S N. pose proof (base_runs l _ _ base_init R th) as (_ & I & _). cbn in S.
  destruct (s_phase s th) as [|t|t o|t o|t o|t o r] eqn:P; [discriminate| | | | |]; try (destruct ok); injection S as <-; cbn in N; try congruence.
  - exists t, o. split; [reflexivity|]. cbn. rewrite (I t o eq_refl). reflexivity.
  - exists t, o. split; [reflexivity|]. cbn. rewrite (I t o eq_refl). reflexivity.
Qed.
(** No descriptor stays open *)
Lemma fds_closed l s th : nruns ninit l = Some s -> s_phase s th = Idle -> s_fds s th = 0.
Proof. intros R P. pose proof (base_runs l _ _ base_init R th) as (F & _). rewrite P in F. exact F. Qed.

(** ** Orderly runs *)
Definition oinv (s : nstate) : Prop := forall th,
  match s_phase s th with
  | Idle | Opening _ => s_ns s th = 0
  | Target _ o | Entering _ o => s_ns s th = 0 /\ o = 0
  | Inside _ o | Leaving _ o _ => o = 0
  end.
Lemma orderly_inv s l s' : orderly s l s' -> oinv s -> oinv s'.
Proof.
  induction 1 as [|s a s1 l s2 S L O _ IH]; intros I; [exact I|]. apply IH. clear IH. intros th. unfold nstep in S. destruct a as [u t|u ok].
  - pose proof (I u) as Iu. destruct (s_phase s u) eqn:P; try discriminate. injection S as <-. cbn. destruct (Nat.eq_dec th u) as [->|N]; upds; [exact Iu|apply I].
  - pose proof (I u) as Iu. destruct (s_phase s u) as [|t|t o|t o|t o|t o r] eqn:P; [discriminate| | | | |];
      try (destruct ok); injection S as <-; cbn; (destruct (Nat.eq_dec th u) as [->|N]; upds; cbn; try (apply I); try tauto).
    + split; [exact Iu|]. destruct (O u t eq_refl P) as [->|P0]; [exact Iu|]. specialize (I 0). rewrite P0 in I. exact I.
    + exfalso. exact (L u t o r eq_refl P).
Qed.
Lemma oinit : oinv ninit.
Proof. intros th. reflexivity. Qed.
Lemma orderly_home l s th : orderly ninit l s -> s_phase s th = Idle -> s_ns s th = 0.
Proof. intros O P. pose proof (orderly_inv _ _ _ O oinit th) as I. rewrite P in I. exact I. Qed.
Lemma orderly_runs s l s' : orderly s l s' -> nruns s l = Some s'.
Proof. induction 1 as [|s a s1 l s2 S _ _ _ IH]; [reflexivity|]. cbn. rewrite S. exact IH. Qed.
(** Runs in which the main thread makes no calls are orderly, as are runs with one call at a time *)
Lemma no_main l : forall s s', (forall t, ~ In (Start 0 t) l) -> s_phase s 0 = Idle -> nruns s l = Some s' ->
  (forall pre th post sm t o r, l = pre ++ Step th false :: post -> nruns s pre = Some sm -> s_phase sm th <> Leaving t o r) -> orderly s l s'.
Proof.
  induction l as [|a l IH]; intros s s' M I R L; cbn in R; [injection R as <-; constructor|].
  destruct (nstep s a) as [q|] eqn:S; [|discriminate]. apply O_cons with q; [exact S| | |].
  - intros th t o r -> . exact (L [] th l s t o r eq_refl eq_refl).
  - intros th t _ _. right. exact I.
  - apply IH; [| |exact R|].
    + intros t H. exact (M t (or_intror H)).
    + unfold nstep in S. destruct a as [u t|u ok].
      * destruct (Nat.eq_dec u 0) as [->|N]; [exfalso; exact (M t (or_introl eq_refl))|]. destruct (s_phase s u); try discriminate. injection S as <-. cbn. rewrite upd_other by congruence. exact I.
      * destruct (Nat.eq_dec u 0) as [->|N]; [rewrite I in S; discriminate|].
        destruct (s_phase s u) as [|t|t o|t o|t o|t o r]; [discriminate| | | | |]; try (destruct ok); injection S as <-; cbn; rewrite upd_other by congruence; exact I.
    + intros pre th post sm t o r E Rm. apply (L (a :: pre) th post sm t o r); [rewrite E; reflexivity|]. cbn. rewrite S. exact Rm.
Qed.

(** Results *)
Lemma complete l s th t : nruns ninit l = Some s -> s_phase s th = Idle ->
  forall b5 b6, exists s', nruns s [Start th t; Step th true; Step th true; Step th true; Step th b5; Step th b6] = Some s' /\
    s_phase s' th = Idle /\ s_log s' = (th, t) :: s_log s /\ s_res s' = (th, Done b5) :: s_res s /\ s_ns s' th = if b6 then s_ns s 0 else t.
Proof.
  intros R P b5 b6. cbn [nruns nstep]. rewrite P. cbn [nruns nstep s_phase s_ns s_fds s_log s_res]. upds. cbn [nruns nstep s_phase s_ns s_fds s_log s_res]. upds.
  cbn [nruns nstep s_phase s_ns s_fds s_log s_res]. upds. cbn [nruns nstep s_phase s_ns s_fds s_log s_res]. upds. cbn [nruns nstep s_phase s_ns s_fds s_log s_res]. upds.
  eexists. split; [reflexivity|]. cbn. upds. repeat split. destruct b6; upds; reflexivity.
Qed.
Lemma early_failure s th t l : s_phase s th = Idle -> In l [[]; [true]; [true; true]] ->
  exists s', nruns s (Start th t :: map (Step th) (l ++ [false])) = Some s' /\ s_phase s' th = Idle /\ s_log s' = s_log s /\ s_res s' = (th, Failed) :: s_res s /\ s_ns s' th = s_ns s th.
Proof.
  intros P I. cbn [nruns nstep]. rewrite P. cbn [In] in I.
  repeat (destruct I as [<-|I]; [cbn [map app nruns nstep s_phase s_ns s_fds s_log s_res]; upds;
    repeat (cbn [nruns nstep s_phase s_ns s_fds s_log s_res]; upds); eexists; split; [reflexivity|]; cbn; upds; auto|]). contradiction.
Qed.
Lemma race : exists s, nruns ninit ([Start 0 7; Step 0 true; Step 0 true; Step 0 true] ++ [Start 1 8; Step 1 true; Step 1 true; Step 1 true; Step 1 true; Step 1 true] ++ [Step 0 true; Step 0 true]) = Some s /\
  s_phase s 0 = Idle /\ s_phase s 1 = Idle /\ s_ns s 0 = 0 /\ s_ns s 1 = 7.
Proof.
  assert (H : option_map (fun s => (s_phase s 0, s_phase s 1, s_ns s 0, s_ns s 1)) (nruns ninit ([Start 0 7; Step 0 true; Step 0 true; Step 0 true] ++ [Start 1 8; Step 1 true; Step 1 true; Step 1 true; Step 1 true; Step 1 true] ++ [Step 0 true; Step 0 true])) = Some (Idle, Idle, 0, 7)) by (vm_compute; reflexivity).
  destruct (nruns ninit _) as [s|] eqn:E in H; [|discriminate]. exists s. split; [exact E|]. cbn [option_map] in H.
  assert (K : (s_phase s 0, s_phase s 1, s_ns s 0, s_ns s 1) = (Idle, Idle, 0, 7)) by congruence. clear - K. repeat match type of K with (_, _) = _ => apply pair_equal_spec in K; destruct K as (K & ?) end. auto.
Qed.
Lemma stuck : exists s, nruns ninit [Start 1 8; Step 1 true; Step 1 true; Step 1 true; Step 1 true; Step 1 false] = Some s /\
  s_phase s 1 = Idle /\ s_ns s 1 = 8 /\ s_res s = [(1, Done true)].
Proof.
  assert (H : option_map (fun s => (s_phase s 1, s_ns s 1, s_res s)) (nruns ninit ([Start 1 8; Step 1 true; Step 1 true; Step 1 true; Step 1 true; Step 1 false])) = Some (Idle, 8, [(1, Done true)])) by (vm_compute; reflexivity).
  destruct (nruns ninit _) as [s|] eqn:E in H; [|discriminate]. exists s. split; [exact E|]. cbn [option_map] in H.
  assert (K : (s_phase s 1, s_ns s 1, s_res s) = (Idle, 8, [(1, Done true)])) by congruence. clear - K. repeat match type of K with (_, _) = _ => apply pair_equal_spec in K; destruct K as (K & ?) end. auto.
Qed.
Lemma how_ok ns : 
  (how_to_run ns = Refuse <-> exists n, ns = Some n /\ ns_xsocket n <> ""%string) /\
  (how_to_run ns = Direct <-> ns = None \/ exists n, ns = Some n /\ ns_xsocket n = ""%string /\ ns_name n = ""%string) /\
  (forall name, how_to_run ns = Switch name <-> name <> ""%string /\ exists n, ns = Some n /\ ns_xsocket n = ""%string /\ ns_name n = name).
Proof.
  unfold how_to_run, usesXSocket. destruct ns as [[a b]|]; cbn.
  - destruct (String.eqb_spec b ""), (String.eqb_spec a ""); cbn; subst; repeat split; intros; try discriminate; try tauto;
      repeat match goal with
      | H : exists _, _ |- _ => destruct H
      | H : _ /\ _ |- _ => destruct H
      | H : _ \/ _ |- _ => destruct H
      | H : Some _ = Some _ |- _ => injection H as <-
      | H : Switch _ = Switch _ |- _ => injection H as <-
      end; cbn in *; try discriminate; try congruence; eauto 8.
  - repeat split; intros; try discriminate; auto; repeat match goal with H : exists _, _ |- _ => destruct H | H : _ /\ _ |- _ => destruct H end; discriminate.
Qed.
Lemma orderly_demo : exists s, orderly ninit [Start 1 7; Step 1 true; Step 1 true; Step 1 true; Step 1 false; Step 1 true] s /\ s_log s = [(1, 7)].
Proof.
  destruct (complete [] ninit 1 7 eq_refl eq_refl false true) as (s & R & _ & L & _). exists s. split; [|exact L].
  apply no_main; [cbn; intuition discriminate|reflexivity|exact R|].
  intros pre th post sm t o r E Rm.
  destruct pre as [|a0 pre]; [discriminate|]. destruct pre as [|a1 pre]; [discriminate|]. destruct pre as [|a2 pre]; [discriminate|].
  destruct pre as [|a3 pre]; [discriminate|]. destruct pre as [|a4 pre].
  - injection E as <- <- <- <- <- _.
    assert (H : option_map (fun s => s_phase s 1) (nruns ninit [Start 1 7; Step 1 true; Step 1 true; Step 1 true]) = Some (Inside 7 0)) by (vm_compute; reflexivity).
    rewrite Rm in H. cbn [option_map] in H. intros K. rewrite K in H. discriminate.
  - destruct pre as [|a5 pre]; [discriminate|]. destruct pre; discriminate.
Qed.
