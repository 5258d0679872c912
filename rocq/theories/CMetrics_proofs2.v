(** The counters of pipelines *)
From Verif Require Import Base Bytes Dns Metrics_model Metrics_spec Metrics_proofs CMetrics_model CMetrics_spec CMetrics_proofs.
From Verif Require Import Groups_model Pipeline_model Pipeline_spec Pipeline_proofs Pipeline_proofs2.
Local Open Scope nat_scope.
Local Open Scope list_scope.
Local Notation b2n := Metrics_spec.one.

(** ** Counting over a list without duplicates *)
Lemma number_app {A} (f : A -> bool) l l' : number f (l ++ l') = number f l + number f l'.
Proof. unfold number. rewrite filter_app, app_length. reflexivity. Qed.
Lemma number_ext_in {A} (f g : A -> bool) l : (forall x, In x l -> f x = g x) -> number f l = number g l.
Proof. unfold number. induction l as [|x l IH]; intros H; [reflexivity|]. cbn. rewrite (H x (or_introl eq_refl)). destruct (g x); cbn; rewrite IH; auto; intros y Y; apply H; right; exact Y. Qed.
Lemma number_one {A} (f : A -> bool) x : number f [x] = b2n (f x).
Proof. unfold number. cbn. destruct (f x); reflexivity. Qed.
Lemma number_upd (f g : nat -> bool) L k : NoDup L -> In k L -> (forall j, j <> k -> f j = g j) -> number g L + b2n (f k) = number f L + b2n (g k).
Proof.
  induction L as [|x L IH]; intros N I E; [destruct I|]. inversion N as [|? ? N1 N2]; subst. change (x :: L) with ([x] ++ L). rewrite !number_app, !number_one.
  destruct I as [->|I].
  - rewrite (number_ext_in f g L); [lia|]. intros y Y. apply E. intros ->. contradiction.
  - specialize (IH N2 I E). assert (x <> k) by (intros ->; contradiction). rewrite (E x) by assumption. lia.
Qed.

Section Pipe.
Variable rCode : N -> string.
Variable why : nat -> readend.
Notation step_bumps := (step_bumps rCode why).
Notation pipe_log := (pipe_log rCode why).

Lemma log_app l1 : forall s l2, pipe_log s (l1 ++ l2) = match pipe_exec s l1 with Some s1 => pipe_log s l1 ++ pipe_log s1 l2 | None => pipe_log s l1 end.
Proof.
  induction l1 as [|e l1 IH]; intros s l2; [reflexivity|]. cbn [app CMetrics_model.pipe_log pipe_exec]. destruct (pipe_step s e) as [s'|]; [|reflexivity].
  rewrite IH. destruct (pipe_exec s' l1); [rewrite app_assoc|]; reflexivity.
Qed.
(** Induction over runs *)
Lemma runs (P : list pevent -> pipe -> list bump -> Prop) : P [] pipe_init [] ->
  (forall l s e s' B, reached l s -> Inv s -> Inv2 l s -> pipe_step s e = Some s' -> P l s B -> P (l ++ [e]) s' (B ++ step_bumps s e)) ->
  forall l s, reached l s -> P l s (pipe_log pipe_init l).
Proof.
  intros P0 PS. induction l as [|e l IH] using rev_ind; intros s R.
  - injection R as <-. exact P0.
  - unfold reached in R. rewrite exec_app in R. destruct (pipe_exec pipe_init l) as [s1|] eqn:E; [|discriminate R]. cbn [pipe_exec] in R.
    destruct (pipe_step s1 e) as [s2|] eqn:S; [|discriminate R]. injection R as ->. rewrite log_app, E. cbn [CMetrics_model.pipe_log]. rewrite S, app_nil_r.
    apply PS; auto; [apply (inv_exec l), E|apply inv2_exec, E].
Qed.

(** ** The calls *)
Lemma begun_app l l' : begun (l ++ l') = begun l ++ begun l'.
Proof. unfold begun. apply flat_map_app. Qed.
Lemma begun_in l k : In k (begun l) <-> exists q, In (ECall k q) l.
Proof.
  unfold begun. rewrite in_flat_map. split.
  - intros (e & I & J). destruct e; try (destruct J; fail). destruct J as [<-|[]]. eauto.
  - intros (q & I). exists (ECall k q). split; [exact I|left; reflexivity].
Qed.
Lemma begun_req l s k : Inv2 l s -> In k (begun l) <-> reqs s k <> None.
Proof.
  intros I. rewrite begun_in. split.
  - intros (q & J). destruct (q_call _ _ _ _ (w_reqs _ _ I) k q J) as (r & E & _). congruence.
  - destruct (reqs s k) as [r|] eqn:E; [|congruence]. intros _. exists (r_q r). apply (q_req _ _ _ _ (w_reqs _ _ I) k r E).
Qed.
Lemma begun_other l e : (forall k q, e <> ECall k q) -> begun (l ++ [e]) = begun l.
Proof. intros H. rewrite begun_app. destruct e; try (cbn; apply app_nil_r). destruct (H k q eq_refl). Qed.
Lemma begun_call l k q : begun (l ++ [ECall k q]) = begun l ++ [k].
Proof. rewrite begun_app. reflexivity. Qed.
Lemma call_fresh l s k q s' : Inv s -> Inv2 l s -> pipe_step s (ECall k q) = Some s' -> ~ In k (begun l) /\ reqs s k = None /\ callers s k = CNone.
Proof.
  intros I I2 S. cbn [pipe_step] in S. destruct (callers s k) eqn:C; try discriminate S. pose proof (i_req s I k) as H. unfold POk in H. rewrite C in H. destruct H as [H _].
  split; [|auto]. intros J. apply (begun_req l s k I2) in J. contradiction.
Qed.
Lemma call_dec e : (exists k q, e = ECall k q) \/ forall k q, e <> ECall k q.
Proof. destruct e; try (right; discriminate). left; eauto. Qed.
Lemma begun_once l s : reached l s -> NoDup (begun l).
Proof.
  apply (runs (fun l s B => NoDup (begun l))); [constructor|]. intros l0 s0 e s' B R I I2 S N.
  destruct (call_dec e) as [(k & q & ->)|O]; [|rewrite begun_other by exact O; exact N]. rewrite begun_call.
  destruct (call_fresh _ _ _ _ _ I I2 S) as (F & _). apply NoDup_rev in N. rewrite <- (rev_involutive (begun l0 ++ [k])). apply NoDup_rev. rewrite rev_app_distr. cbn.
  constructor; [rewrite <- in_rev; exact F|exact N].
Qed.

(** ** Requests that are done *)
Section Done.
Variable P : result -> bool.
Hypothesis closed : P (Err "closed") = false.
Hypothesis ids : forall i a, P (Ans (set_id i a)) = P (Ans a).
Definition dw (f : nat -> option request) (k : nat) : bool := match f k with Some r => match r_done r with Some x => P x | None => false end | None => false end.
Lemma mark_count l s k res : NoDup (begun l) -> Inv2 l s -> (exists r, reqs s k = Some r /\ r_done r = None) ->
  number (dw (reqs (markDone k res s))) (begun l) = number (dw (reqs s)) (begun l) + b2n (P res).
Proof.
  intros N I (r & E & D). destruct (mark_reqs s k res r E D) as (res' & -> & V). fields.
  assert (IK : In k (begun l)) by (apply (begun_req l s k I); congruence).
  pose proof (number_upd (dw (reqs s)) (dw (upd (reqs s) k (Some (Request (r_q r) (r_id r) (Some res'))))) (begun l) k N IK) as U.
  assert (A : dw (reqs s) k = false) by (unfold dw; rewrite E, D; reflexivity). rewrite A in U.
  assert (B : dw (upd (reqs s) k (Some (Request (r_q r) (r_id r) (Some res')))) k = P res).
  { unfold dw. rewrite upd_eq. cbn [r_done]. destruct res; subst res'; [apply ids|reflexivity|reflexivity]. }
  rewrite B in U. rewrite <- U; [cbn; lia|]. intros j NJ. unfold dw. rewrite upd_neq by congruence. reflexivity.
Qed.
Definition mark (s : pipe) (e : pevent) : nat :=
  match e with
  | EDialFail x => b2n (P (Err x))
  | EAdd _ => if Nat.leb (N.to_nat 65535) (length (inflight s)) then b2n (P (Err "full")) else 0
  | EFail => match writer s with WOwn k x => b2n (P (Err x)) | _ => 0 end
  | EComplete => match reader s with RMatch k a => b2n (P (Ans a)) | _ => 0 end
  | _ => 0
  end.
Lemma held_open s k : Inv s -> 1 <= places s k -> exists r, reqs s k = Some r /\ r_done r = None.
Proof. intros I L. destruct (POk_held s k (i_req s I k) L) as (r & E & D & _). eauto. Qed.
Lemma done_step l s e s' : Inv s -> Inv2 l s -> NoDup (begun l) -> pipe_step s e = Some s' ->
  number (dw (reqs s')) (begun (l ++ [e])) = number (dw (reqs s)) (begun l) + mark s e.
Proof.
  intros I I2 N S.
  destruct (call_dec e) as [(k & q & ->)|O].
  { destruct (call_fresh _ _ _ _ _ I I2 S) as (F & RN & CN). rewrite begun_call, number_app, number_one. cbn [pipe_step] in S. rewrite CN in S. injection S as <-. fields. unfold mark.
    unfold dw at 2. rewrite upd_eq. cbn [r_done b2n Metrics_spec.one]. rewrite (number_ext_in _ (dw (reqs s))); [lia|]. intros j J. unfold dw. rewrite upd_neq; [reflexivity|]. intros ->. contradiction. }
  rewrite begun_other by exact O. destruct e; cbn [pipe_step] in S; cbn [mark]; rewrite ?Nat.add_0_r.
  - destruct (O k q eq_refl).
  - destruct (callers s k); try discriminate S. injection S as <-. reflexivity.
  - destruct (main s); try discriminate S. destruct (receive k s) as [s1|] eqn:Rc; [|discriminate S]. injection S as <-.
    destruct (receive_spec _ _ _ Rc) as [[_ ->]|(_ & _ & ->)]; reflexivity.
  - destruct (main s); try discriminate S. injection S as <-. reflexivity.
  - destruct (main s) eqn:M; try discriminate S. injection S as <-. fields. apply mark_count; auto. apply held_open; [exact I|]. unfold places, cnt_main. rewrite M, one_refl. lia.
  - destruct (writer s); try discriminate S. destruct (receive k s) as [s1|] eqn:Rc; [|discriminate S]. injection S as <-.
    destruct (receive_spec _ _ _ Rc) as [[_ ->]|(_ & _ & ->)]; reflexivity.
  - destruct (writer s) eqn:W; try discriminate S. destruct (Nat.leb _ _).
    + injection S as <-. fields. apply mark_count; auto. apply held_open; [exact I|]. unfold places, cnt_writer. rewrite W, one_refl. lia.
    + destruct (lookup id (inflight s)); [discriminate S|]. destruct (reqs s k) as [r|] eqn:E; [|discriminate S]. destruct (N.ltb id 65536); [|discriminate S]. injection S as <-. fields.
      rewrite Nat.add_0_r. apply number_ext_in. intros j _. unfold dw. destruct (Nat.eq_dec j k) as [->|NJ]; [rewrite upd_eq, E; reflexivity|rewrite upd_neq by congruence; reflexivity].
  - destruct (writer s); try discriminate S. injection S as <-. reflexivity.
  - destruct (writer s); try discriminate S. injection S as <-. reflexivity.
  - destruct (writer s); try discriminate S. destruct (lookup id (inflight s)); injection S as <-; reflexivity.
  - destruct (writer s) eqn:W; try discriminate S. injection S as <-. fields. apply mark_count; auto. apply held_open; [exact I|]. unfold places, cnt_writer. rewrite W, one_refl. lia.
  - destruct (writer s); try discriminate S. destruct (stop s); try discriminate S. injection S as <-. reflexivity.
  - destruct (reader s); try discriminate S. injection S as <-. reflexivity.
  - destruct (reader s); try discriminate S. injection S as <-. reflexivity.
  - destruct (reader s); try discriminate S. destruct (lookup _ (inflight s)); injection S as <-; reflexivity.
  - destruct (reader s) eqn:W; try discriminate S. injection S as <-. fields. apply mark_count; auto. apply held_open; [exact I|]. unfold places, cnt_reader. rewrite W, one_refl. lia.
  - destruct (main s), (writer s), (reader s); try discriminate S. injection S as <-. reflexivity.
  - destruct (main s); try discriminate S. injection S as <-. fields.
    assert (C : forall j, cnt (map snd (inflight s)) j <= 1) by (intros j; pose proof (POk_le s j (i_req s I j)) as L; unfold places in L; lia).
    assert (Q : forall j, In j (map snd (inflight s)) -> exists r, reqs s j = Some r /\ r_done r = None).
    { intros j J. apply cnt_in in J. apply held_open; [exact I|]. unfold places. lia. }
    destruct (fold_mark _ s C Q) as [_ F]. cbv zeta in F. apply number_ext_in. intros j _. destruct (F j) as [F1 F2]. unfold dw.
    destruct (in_dec Nat.eq_dec j (map snd (inflight s))) as [J|J].
    + destruct (F1 J) as (r & E1 & E2). rewrite E2. cbn [r_done]. destruct (Q j J) as (r0 & E3 & E4). rewrite E3, E4. exact closed.
    + rewrite (F2 J). reflexivity.
  - destruct (callers s k); try discriminate S. destruct (reqs s k) as [r|]; [|discriminate S]. destruct (r_done r); [|discriminate S]. injection S as <-. reflexivity.
  - destruct (callers s k); try discriminate S. injection S as <-. reflexivity.
  - destruct (callers s k); try discriminate S. destruct (reqs s k) as [r|]; [|discriminate S]. injection S as <-. destruct (lookup _ _) as [k'|]; [destruct (Nat.eqb k' k)|]; reflexivity.
Qed.
(** A counter that is added to when a request gets a result of this sort *)
Lemma done_counts (c : list bump -> nat) (ok : list pevent -> Prop) : c [] = 0 -> (forall x y, c (x ++ y) = c x + c y) -> (forall l e, ok (l ++ [e]) -> ok l) ->
  (forall l s e s', ok (l ++ [e]) -> reached l s -> pipe_step s e = Some s' -> c (step_bumps s e) = mark s e) ->
  forall l s, reached l s -> ok l -> c (pipe_log pipe_init l) = number (done_with P s) (begun l).
Proof.
  intros C0 CA O1 O2 l s R O. change (done_with P s) with (dw (reqs s)). revert O. revert l s R. apply (runs (fun l s B => ok l -> c B = number (dw (reqs s)) (begun l))); [intros _; exact C0|].
  intros l s e s' B R I I2 S IH O. rewrite (done_step l s e s' I I2 (begun_once l s R) S), CA, (O2 l s e s' O R S), IH by (eapply O1, O). reflexivity.
Qed.
Lemma done_le (c : list bump -> nat) (ok : list pevent -> Prop) : (forall x y, c (x ++ y) = c x + c y) -> (forall l e, ok (l ++ [e]) -> ok l) ->
  (forall l s e s', ok (l ++ [e]) -> reached l s -> pipe_step s e = Some s' -> mark s e <= c (step_bumps s e)) ->
  forall l s, reached l s -> ok l -> number (done_with P s) (begun l) <= c (pipe_log pipe_init l).
Proof.
  intros CA O1 O2 l s R O. change (done_with P s) with (dw (reqs s)). revert O. revert l s R. apply (runs (fun l s B => ok l -> number (dw (reqs s)) (begun l) <= c B)); [intros _; apply Nat.le_0_l|].
  intros l s e s' B R I I2 S IH O. rewrite (done_step l s e s' I I2 (begun_once l s R) S), CA. pose proof (O2 l s e s' O R S). pose proof (IH (O1 _ _ O)). lia.
Qed.
End Done.
End Pipe.
