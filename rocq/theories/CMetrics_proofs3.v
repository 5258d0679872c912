(** The counters of pipelines: what they show *)
From Verif Require Import Base Bytes Dns Metrics_model Metrics_spec Metrics_proofs CMetrics_model CMetrics_spec CMetrics_proofs CMetrics_proofs2.
From Verif Require Import Groups_model Pipeline_model Pipeline_spec Pipeline_proofs Pipeline_proofs2.
Local Open Scope nat_scope.
Local Open Scope list_scope.
Local Notation b2n := Metrics_spec.one.

(** One step, by cases: the events that can happen in a state *)
Ltac steps S :=
  match type of S with pipe_step ?s ?e = Some _ => destruct e end; cbn [pipe_step] in S; cbn [mark CMetrics_model.step_bumps queue_step]; try (set (M := N.to_nat 65535) in *; clearbody M);
  repeat match type of S with
         | match ?x with _ => _ end = Some _ => let E := fresh "E" in destruct x eqn:E; try discriminate S
         | (if ?x then _ else _) = Some _ => let E := fresh "E" in destruct x eqn:E; try discriminate S
         | (let _ := _ in _) = Some _ => cbv zeta in S
         end;
  try (injection S as <-).
Ltac open_times := unfold times, named; cbn [CMetrics_model.step_bumps end_bumps filter app length bump_eqb int err answered fst snd String.eqb Ascii.eqb Bool.eqb andb].

Lemma mark_fields k r s : writer (markDone k r s) = writer s /\ reader (markDone k r s) = reader s /\ conn (markDone k r s) = conn s /\ wires (markDone k r s) = wires s /\
  callers (markDone k r s) = callers s /\ inflight (markDone k r s) = inflight s.
Proof. rewrite mark_other. repeat split. Qed.
Lemma mark_writer k r s : writer (markDone k r s) = writer s.
Proof. apply mark_fields. Qed.
Lemma mark_reader k r s : reader (markDone k r s) = reader s.
Proof. apply mark_fields. Qed.
Lemma mark_conn k r s : conn (markDone k r s) = conn s.
Proof. apply mark_fields. Qed.
Lemma mark_wires k r s : wires (markDone k r s) = wires s.
Proof. apply mark_fields. Qed.
Lemma mark_callers k r s : callers (markDone k r s) = callers s.
Proof. apply mark_fields. Qed.
Lemma mark_inflight k r s : inflight (markDone k r s) = inflight s.
Proof. apply mark_fields. Qed.
Lemma marks_fields ks : forall s, let s' := fold_left (fun s k => markDone k (Err "closed") s) ks s in conn s' = conn s /\ wires s' = wires s /\ callers s' = callers s.
Proof. induction ks as [|k ks IH]; intros s; cbn [fold_left]; [auto|]. destruct (IH (markDone k (Err "closed") s)) as (A & B & C). cbv zeta. rewrite A, B, C, mark_conn, mark_wires, mark_callers. auto. Qed.

Section Pipe.
Variable rCode : N -> string.
Variable why : nat -> readend.
Notation step_bumps := (step_bumps rCode why).
Notation pipe_log := (pipe_log rCode why).

Lemma write_error l s : reached l s -> forall x, (exists k id, writer s = WFail k id x) \/ (exists k, writer s = WOwn k x) -> In (EWriteFail x) l.
Proof.
  apply (runs rCode why (fun l s B => forall x, (exists k id, writer s = WFail k id x) \/ (exists k, writer s = WOwn k x) -> In (EWriteFail x) l)).
  { intros x [(k & id & H)|(k & H)]; discriminate H. }
  intros l0 s0 e s' B R I I2 S IH x H. apply in_or_app.
  steps S; try match goal with Rc : receive _ _ = Some _ |- _ => destruct (receive_spec _ _ _ Rc) as [[_ ->]|(_ & _ & ->)]; clear Rc end; fields;
    try (destruct H as [(? & ? & H)|(? & H)]; discriminate H); try (left; apply IH; exact H);
    try (rewrite mark_writer in H; left; apply IH; exact H);
    try (destruct H as [(? & ? & H)|(? & H)]; first [discriminate H|injection H as <- <- <-; right; left; reflexivity|injection H as <- <-; left; apply IH; eauto]).
  - rewrite E0 in H. destruct H as [(? & ? & H)|(? & H)]; discriminate H.
  - left. apply IH. destruct (lookup _ _) as [k'|]; [destruct (Nat.eqb k' k)|]; exact H.
Qed.

Definition by_code (k : string) : result -> bool := gave (fun a => String.eqb k (rCode (m_rcode a))).
Lemma one_key n k x : length (if String.eqb n n && String.eqb k x then [(n, x)] else []) = b2n (String.eqb k x).
Proof. rewrite String.eqb_refl. cbn [andb]. destruct (String.eqb k x); reflexivity. Qed.
Ltac marks S := steps S; cbn [mark]; open_times; repeat match goal with E : _ = _ |- _ => rewrite E end; cbn [mark]; open_times; rewrite ?one_key; try reflexivity;
  try (match goal with |- context [String.eqb ?a ?b] => destruct (String.eqb a b) end; reflexivity).
Lemma end_times b r : (forall k, b <> err k) -> times b (end_bumps r) = 0.
Proof.
  intros H. destruct r; cbn [end_bumps]; [reflexivity| | |]; unfold times; cbn [filter];
  match goal with |- context [bump_eqb b ?x] => destruct (bump_eqb b x) eqn:E; [|reflexivity] end;
  unfold bump_eqb in E; apply andb_prop in E; destruct E as [E1 E2]; apply String.eqb_eq in E1, E2; destruct b as [b1 b2]; cbn in *; subst; destruct (H _ eq_refl).
Qed.
Lemma responses l s k : reached l s -> times ("response", k)%string (pipe_log pipe_init l) = number (done_with (by_code k) s) (begun l).
Proof.
  intros R. apply (done_counts rCode why (by_code k) eq_refl (fun i a => eq_refl) (times ("response", k)%string) (fun _ => True)); auto using times_app.
  clear l s R. intros l s e s' _ R S. marks S. all: try (apply end_times; discriminate). unfold by_code, gave. destruct (String.eqb k _); reflexivity.
Qed.
Definition is_answer : result -> bool := gave (fun _ => true).
Lemma responses_all l s : reached l s -> named "response" (pipe_log pipe_init l) = number (done_with is_answer s) (begun l).
Proof.
  intros R. apply (done_counts rCode why is_answer eq_refl (fun i a => eq_refl) (named "response"%string) (fun _ => True)); auto using named_app.
  clear l s R. intros l s e s' _ R S. marks S. destruct (why (conn s)); reflexivity.
Qed.
Lemma opens d l s : reached l s -> dial_errors d l -> times (err "open") (pipe_log pipe_init l) = number (done_with (failed_with d) s) (begun l).
Proof.
  intros R D. assert (DC : d "closed"%string = false) by apply D.
  apply (done_counts rCode why (failed_with d) DC (fun i a => eq_refl) (times (err "open")) (dial_errors d)); auto using times_app.
  - intros l0 e (A & B & C). split; [|split; [|exact C]]; intros x I; [apply A|apply B]; apply in_or_app; auto.
  - clear l s R D. intros l s e s' (A & B & C1 & C2) R S.
    destruct e; try (cbn [mark CMetrics_model.step_bumps]; reflexivity).
    + cbn [mark CMetrics_model.step_bumps failed_with]. rewrite (A e) by (apply in_elt). reflexivity.
    + cbn [mark CMetrics_model.step_bumps failed_with]. destruct (Nat.leb _ _); [rewrite C1|]; reflexivity.
    + cbn [mark CMetrics_model.step_bumps]. destruct (writer s); try reflexivity. destruct (lookup _ _); reflexivity.
    + cbn [mark CMetrics_model.step_bumps]. destruct (writer s) eqn:W; try reflexivity. cbn [failed_with].
      rewrite (B e); [reflexivity|]. apply in_or_app. left. apply (write_error l s R). eauto.
    + cbn [mark CMetrics_model.step_bumps]. destruct (why (conn s)); reflexivity.
    + cbn [mark CMetrics_model.step_bumps]. destruct (reader s); try reflexivity. destruct (lookup _ _); reflexivity.
    + cbn [mark CMetrics_model.step_bumps]. destruct (reader s); reflexivity.
Qed.
Lemma fulls l s : reached l s -> not_from_network "full" l -> times (err "inflight_full") (pipe_log pipe_init l) = number (done_with (failed_with (String.eqb "full")) s) (begun l).
Proof.
  intros R D.
  apply (done_counts rCode why (failed_with (String.eqb "full")) eq_refl (fun i a => eq_refl) (times (err "inflight_full")) (not_from_network "full")); auto using times_app.
  - intros l0 e (A & B). split; intros I; [apply A|apply B]; apply in_or_app; auto.
  - clear l s R D. intros l s e s' (A & B) R S.
    destruct e; try (cbn [mark CMetrics_model.step_bumps]; reflexivity).
    + cbn [mark CMetrics_model.step_bumps failed_with]. destruct (String.eqb_spec "full" e) as [<-|]; [|reflexivity]. destruct A. apply in_elt.
    + cbn [mark CMetrics_model.step_bumps failed_with]. destruct (Nat.leb _ _); reflexivity.
    + cbn [mark CMetrics_model.step_bumps]. destruct (writer s); try reflexivity. destruct (lookup _ _); reflexivity.
    + cbn [mark CMetrics_model.step_bumps]. destruct (writer s) eqn:W; try reflexivity. cbn [failed_with].
      destruct (String.eqb_spec "full" e) as [<-|]; [|reflexivity]. destruct B. apply in_or_app. left. apply (write_error l s R). eauto.
    + cbn [mark CMetrics_model.step_bumps]. destruct (why (conn s)); reflexivity.
    + cbn [mark CMetrics_model.step_bumps]. destruct (reader s); try reflexivity. destruct (lookup _ _); reflexivity.
    + cbn [mark CMetrics_model.step_bumps]. destruct (reader s); reflexivity.
Qed.
(** Write errors: each fails at most one request and ends a connection. *)
Lemma sends l s : reached l s -> times (err "send_query") (pipe_log pipe_init l) + giving_up s = write_failures l.
Proof.
  apply (runs rCode why (fun l s B => times (err "send_query") B + giving_up s = write_failures l)); [reflexivity|].
  intros l0 s0 e s' B R I I2 S IH. unfold write_failures in *. rewrite number_app, <- IH, times_app, number_one. unfold giving_up.
  steps S; try match goal with Rc : receive _ _ = Some _ |- _ => destruct (receive_spec _ _ _ Rc) as [[_ ->]|(_ & _ & ->)]; clear Rc end; fields;
    rewrite ?mark_writer; repeat match goal with E : _ = _ |- _ => rewrite E end; open_times; cbn [b2n Metrics_spec.one]; try lia.
  - destruct (i_idle s0 I) as (_ & W & _); [eauto|]. rewrite W. lia.
  - destruct (why (conn s0)); cbn [end_bumps filter bump_eqb err fst snd String.eqb Ascii.eqb Bool.eqb andb length]; lia.
  - destruct (i_drain s0 I) as [W _]; [assumption|]. rewrite W. lia.
  - destruct (lookup _ _) as [k'|]; [destruct (Nat.eqb k' k)|]; fields; lia.
Qed.
Lemma write_failed w l s : reached l s -> (forall x, w x = true -> ~ In (EDialFail x) l) -> w "full"%string = false -> w "closed"%string = false ->
  number (done_with (failed_with w) s) (begun l) <= times (err "send_query") (pipe_log pipe_init l).
Proof.
  intros R D W1 W2. apply (done_le rCode why (failed_with w) W2 (fun i a => eq_refl) (times (err "send_query")) (fun l => forall x, w x = true -> ~ In (EDialFail x) l)); auto using times_app.
  - intros l0 e H x X I. apply (H x X), in_or_app. auto.
  - clear l s R D. intros l s e s' H R S. destruct e; cbn [mark CMetrics_model.step_bumps]; try apply Nat.le_0_l.
    + cbn [failed_with]. destruct (w e) eqn:E; [|apply Nat.le_0_l]. destruct (H e E). apply in_elt.
    + destruct (Nat.leb _ _); [cbn [failed_with]; rewrite W1|]; apply Nat.le_0_l.
    + destruct (writer s); try apply Nat.le_0_l. cbn [failed_with]. destruct (w e); [apply Nat.le_refl|apply Nat.le_0_l].
    + destruct (reader s); apply Nat.le_0_l.
Qed.
(** What was sent and received *)
Lemma queries l s : reached l s -> times (int "query") (pipe_log pipe_init l) = number is_sent (wires s).
Proof.
  apply (runs rCode why (fun l s B => times (int "query") B = number is_sent (wires s))); [reflexivity|].
  intros l0 s0 e s' B R I I2 S IH. rewrite times_app, IH. clear IH.
  steps S; try match goal with Rc : receive _ _ = Some _ |- _ => destruct (receive_spec _ _ _ Rc) as [[_ ->]|(_ & _ & ->)]; clear Rc end; fields;
    rewrite ?mark_wires, ?number_app, ?number_one; repeat match goal with E : _ = _ |- _ => rewrite E end; open_times; cbn [b2n Metrics_spec.one is_sent]; try lia.
  - destruct (why (conn s0)); cbn; lia.
  - destruct (marks_fields (map snd (inflight s0)) s0) as (_ & -> & _). lia.
  - destruct (lookup _ _) as [k'|]; [destruct (Nat.eqb k' k)|]; fields; lia.
Qed.
Lemma receipts l s : reached l s -> named "response" (pipe_log pipe_init l) + times (err "unexpected_a") (pipe_log pipe_init l) + in_hand s = number is_received (wires s).
Proof.
  apply (runs rCode why (fun l s B => named "response" B + times (err "unexpected_a") B + in_hand s = number is_received (wires s))); [reflexivity|].
  intros l0 s0 e s' B R I I2 S IH. rewrite times_app, named_app. unfold in_hand in *. set (x := named "response" B) in *; set (y := times (err "unexpected_a") B) in *; clearbody x y.
  steps S; try match goal with Rc : receive _ _ = Some _ |- _ => destruct (receive_spec _ _ _ Rc) as [[_ ->]|(_ & _ & ->)]; clear Rc end; fields;
    rewrite ?mark_wires, ?mark_reader, ?number_app, ?number_one; open_times; repeat match goal with E : reader s0 = _ |- _ => rewrite E in *; clear E | E : lookup _ _ = _ |- _ => rewrite E; clear E end; open_times; cbn [b2n Metrics_spec.one is_received]; try lia.
  - destruct (i_idle s0 I) as (_ & _ & W); [eauto|]. rewrite W in IH. lia.
  - destruct (why (conn s0)); cbn; lia.
  - destruct (marks_fields (map snd (inflight s0)) s0) as (_ & -> & _). destruct (i_drain s0 I) as [_ W]; [assumption|]. rewrite W in IH. lia.
  - destruct (lookup _ _) as [k'|]; [destruct (Nat.eqb k' k)|]; fields; lia.
Qed.
(** How connections ended *)
Lemma conn_open l s : reached l s -> reader s <> RNone -> 1 <= conn s.
Proof.
  apply (runs rCode why (fun l s B => reader s <> RNone -> 1 <= conn s)); [intros H; destruct H; reflexivity|].
  intros l0 s0 e s' B R I I2 S IH.
  steps S; try match goal with Rc : receive _ _ = Some _ |- _ => destruct (receive_spec _ _ _ Rc) as [[_ ->]|(_ & _ & ->)]; clear Rc end; fields;
    rewrite ?mark_reader, ?mark_conn; try (exact IH); try (intros _; lia); try (intros _; apply IH; congruence).
  - intros H; destruct H; reflexivity.
  - destruct (lookup _ _) as [k'|]; [destruct (Nat.eqb k' k)|]; fields; exact IH.
Qed.
End Pipe.
