(** The counters of pipelines: connections, timeouts, and the length of the queue *)
From Verif Require Import Base Bytes Dns Metrics_model Metrics_spec Metrics_proofs CMetrics_model CMetrics_spec CMetrics_proofs CMetrics_proofs2 CMetrics_proofs3.
From Verif Require Import Groups_model Pipeline_model Pipeline_spec Pipeline_proofs Pipeline_proofs2.
Local Open Scope nat_scope.
Local Open Scope list_scope.
Local Notation b2n := Metrics_spec.one.

Lemma number_zero {A} (f : A -> bool) l x : number f l = 0 -> In x l -> f x = false.
Proof. unfold number. intros E I. destruct (f x) eqn:F; [|reflexivity]. assert (J : In x (filter f l)) by (apply filter_In; auto). destruct (filter f l); [destruct J|discriminate E]. Qed.
Lemma number_le {A} (f g : A -> bool) l : (forall x, In x l -> f x = true -> g x = true) -> number f l <= number g l.
Proof.
  unfold number. induction l as [|x l IH]; intros H; [apply Nat.le_refl|]. cbn. assert (IH' := IH (fun y I => H y (or_intror I))).
  destruct (f x) eqn:F; [rewrite (H x (or_introl eq_refl) F); cbn; lia|]. destruct (g x); cbn; lia.
Qed.

Section Pipe.
Variable rCode : N -> string.
Variable why : nat -> readend.
Notation step_bumps := (step_bumps rCode why).
Notation pipe_log := (pipe_log rCode why).

(** ** Connections *)
Definition end_key (r : readend) : string := match r with CMetrics_model.Idle => "idle" | ServerTerm => "server_term" | ServerEOF => "server_eof" | ReadError => "read" end.
Lemma end_bumps_key r x : r <> CMetrics_model.Idle -> times (err (end_key r)) (end_bumps x) = b2n (end_is x r).
Proof. intros N. destruct r; [destruct N; reflexivity| | |]; destruct x; reflexivity. Qed.
Lemma ends r l s : reached l s -> r <> CMetrics_model.Idle -> times (err (end_key r)) (pipe_log pipe_init l) = number (fun n => end_is (why n) r) (seq 1 (ended s)).
Proof.
  intros R N. revert l s R. apply (runs rCode why (fun l s B => times (err (end_key r)) B = number (fun n => end_is (why n) r) (seq 1 (ended s)))); [reflexivity|].
  intros l0 s0 e s' B R I I2 S IH. rewrite times_app, IH.
  assert (Z : e <> EReadFail -> times (err (end_key r)) (step_bumps s0 e) = 0).
  { intros NE. destruct e; try (destruct NE; reflexivity); cbn [CMetrics_model.step_bumps].
    all: try (destruct r; reflexivity).
    - destruct (Nat.leb _ _); destruct r; reflexivity.
    - destruct (writer s0); try (destruct r; reflexivity). destruct (lookup _ _); destruct r; reflexivity.
    - destruct (reader s0); try (destruct r; reflexivity). destruct (lookup _ _); destruct r; reflexivity.
    - destruct (reader s0); destruct r; reflexivity. }
  pose proof (conn_open rCode why l0 s0 R) as CO. clear IH.
  assert (ZR : e = EReadFail -> times (err (end_key r)) (step_bumps s0 e) = b2n (end_is (why (conn s0)) r)) by (intros ->; apply end_bumps_key, N).
  generalize dependent (times (err (end_key r)) (step_bumps s0 e)). intros T Z ZR.
  steps S; try match goal with Rc : receive _ _ = Some _ |- _ => destruct (receive_spec _ _ _ Rc) as [[_ ->]|(_ & _ & ->)]; clear Rc end;
    rewrite ?Z by discriminate; rewrite ?Nat.add_0_r; unfold ended; fields; rewrite ?mark_reader, ?mark_conn; try reflexivity; clear Z;
    repeat match goal with E : reader s0 = _ |- _ => rewrite E in *; clear E end; try reflexivity.
  - destruct (i_idle s0 I) as (_ & _ & ->); [eauto|]. f_equal. f_equal. lia.
  - rewrite (ZR eq_refl). specialize (CO ltac:(discriminate)).
    replace (seq 1 (conn s0)) with (seq 1 (conn s0 - 1) ++ [conn s0]); [rewrite number_app, number_one; reflexivity|].
    replace (conn s0) with (1 + (conn s0 - 1)) at 2 by lia. rewrite <- seq_S. f_equal. lia.
  - destruct (i_drain s0 I) as [_ ->]; [assumption|]. destruct (marks_fields (map snd (inflight s0)) s0) as (-> & _). reflexivity.
  - destruct (lookup _ _) as [k'|]; [destruct (Nat.eqb k' k)|]; reflexivity.
Qed.

(** ** Timeouts *)
Lemma done_error x l s k : reached l s -> x <> "closed"%string -> x <> "full"%string -> not_from_network x l -> done_with (failed_with (String.eqb x)) s k = false.
Proof.
  intros R N1 N2 N3. unfold done_with. destruct (reqs s k) as [r|] eqn:E; [|reflexivity].
  assert (Z : 0 = number (done_with (failed_with (String.eqb x)) s) (begun l)).
  { assert (C : failed_with (String.eqb x) (Err "closed") = false) by (cbn; apply String.eqb_neq, N1).
    apply (done_counts rCode why (failed_with (String.eqb x)) C (fun i a => eq_refl) (fun _ => 0) (not_from_network x)); auto.
    - intros l0 e (A & B). split; intros J; [apply A|apply B]; apply in_or_app; auto.
    - clear l s R N3 k r E. intros l s e s' (A & B) R S. destruct e; try reflexivity; cbn [mark failed_with].
      + destruct (String.eqb_spec x e) as [<-|]; [|reflexivity]. destruct A. apply in_elt.
      + destruct (Nat.leb _ _); [|reflexivity]. apply String.eqb_neq in N2. rewrite N2. reflexivity.
      + destruct (writer s) eqn:W; try reflexivity. destruct (String.eqb_spec x e) as [<-|]; [|reflexivity]. destruct B. apply in_or_app. left. apply (write_error rCode why l s R). eauto.
      + destruct (reader s); reflexivity. }
  assert (IK : In k (begun l)) by (apply (begun_req l s k (inv2_exec l s R)); congruence).
  pose proof (number_zero _ _ k (eq_sym Z) IK) as Q. unfold done_with in Q. rewrite E in Q. exact Q.
Qed.
Definition rw (P : result -> bool) (f : nat -> caller) (k : nat) : bool := match f k with CRet r => P r | _ => false end.
Lemma rw_upd P f k v L : NoDup L -> In k L -> rw P f k = false -> number (rw P (upd f k v)) L = number (rw P f) L + b2n (match v with CRet r => P r | _ => false end).
Proof.
  intros N I E. pose proof (number_upd (rw P f) (rw P (upd f k v)) L k N I) as U. rewrite E in U. cbn [b2n Metrics_spec.one] in U. rewrite Nat.add_0_r in U.
  rewrite U; [unfold rw at 2; rewrite upd_eq; reflexivity|]. intros j NJ. unfold rw. rewrite upd_neq by congruence. reflexivity.
Qed.
Definition late : result -> bool := failed_with (String.eqb "timeout").
Lemma timeouts l s : reached l s -> not_from_network "timeout" l -> times (err "querytimeout") (pipe_log pipe_init l) = number (returned late s) (begun l).
Proof.
  intros R D. change (returned late s) with (rw late (callers s)). revert D. revert l s R.
  apply (runs rCode why (fun l s B => not_from_network "timeout" l -> times (err "querytimeout") B = number (rw late (callers s)) (begun l))); [reflexivity|].
  intros l0 s0 e s' B R I I2 S IH D.
  assert (D0 : not_from_network "timeout" l0) by (destruct D as [A C]; split; intros J; [apply A|apply C]; apply in_or_app; auto).
  rewrite times_app, (IH D0). clear IH. pose proof (begun_once rCode why l0 s0 R) as N.
  assert (CK : forall k, callers s0 k <> CNone -> In k (begun l0)).
  { intros k H. apply (begun_req l0 s0 k I2). pose proof (i_req s0 I k) as Q. unfold POk in Q. destruct (callers s0 k); [destruct H; reflexivity| | | |]; destruct Q as (rr & -> & _); discriminate. }
  destruct (call_dec e) as [(k & q & ->)|O].
  { destruct (call_fresh _ _ _ _ _ I I2 S) as (F & _ & CN). rewrite begun_call, number_app, number_one. cbn [pipe_step] in S. rewrite CN in S. injection S as <-. fields.
    cbn [CMetrics_model.step_bumps times filter length]. rewrite Nat.add_0_r. unfold rw at 3. rewrite upd_eq. cbn [b2n Metrics_spec.one]. rewrite Nat.add_0_r.
    apply number_ext_in. intros j J. unfold rw. rewrite upd_neq; [reflexivity|]. intros ->. contradiction. }
  rewrite begun_other by exact O.
  assert (T0 : (forall k, e <> EOfferTimeout k) -> (forall k, e <> EDelete k) -> times (err "querytimeout") (step_bumps s0 e) = 0).
  { intros H1 H2. destruct e; try reflexivity; cbn [CMetrics_model.step_bumps].
    - destruct (H1 k eq_refl).
    - destruct (Nat.leb _ _); reflexivity.
    - destruct (writer s0); try reflexivity. destruct (lookup _ _); reflexivity.
    - destruct (why (conn s0)); reflexivity.
    - destruct (reader s0); try reflexivity. destruct (lookup _ _); reflexivity.
    - destruct (reader s0); reflexivity.
    - destruct (H2 k eq_refl). }
  assert (T1 : (exists k, e = EOfferTimeout k \/ e = EDelete k) -> times (err "querytimeout") (step_bumps s0 e) = 1) by (intros (k & [->| ->]); reflexivity).
  generalize dependent (times (err "querytimeout") (step_bumps s0 e)). intros T T0 T1.
  steps S; try match goal with Rc : receive _ _ = Some _ |- _ => destruct (receive_spec _ _ _ Rc) as [[?C ->]|(_ & _ & ->)]; clear Rc end;
    rewrite ?T0 by (intros; discriminate); try (rewrite T1 by eauto); clear T0 T1; rewrite ?Nat.add_0_r; fields; rewrite ?mark_callers; try reflexivity.
  - destruct (O k q eq_refl).
  - rewrite rw_upd; [reflexivity|exact N|apply CK; congruence|unfold rw; rewrite E; reflexivity].
  - rewrite rw_upd; [cbn; lia|exact N|apply CK; congruence|unfold rw; rewrite C; reflexivity].
  - rewrite rw_upd; [cbn; lia|exact N|apply CK; congruence|unfold rw; rewrite C; reflexivity].
  - destruct (marks_fields (map snd (inflight s0)) s0) as (_ & _ & ->). reflexivity.
  - rewrite rw_upd; [|exact N|apply CK; congruence|unfold rw; rewrite E; reflexivity].
    assert (Q : late (waitFor r r0) = false).
    { pose proof (done_error "timeout" l0 s0 k R ltac:(discriminate) ltac:(discriminate) D0) as Q. unfold done_with in Q. rewrite E0, E1 in Q.
      unfold waitFor. destruct r0 as [a| |x]; [destruct (validateResponseQuestion _ _)| |]; try reflexivity. exact Q. }
    rewrite Q. cbn. lia.
  - rewrite rw_upd; [cbn; lia|exact N|apply CK; congruence|unfold rw; rewrite E; reflexivity].
  - destruct (lookup _ _) as [k'|]; [destruct (Nat.eqb k' k)|]; fields; (rewrite rw_upd; [reflexivity|exact N|apply CK; congruence|unfold rw; rewrite E; reflexivity]).
Qed.

(** ** Responses *)
Lemma answers_le k l s : reached l s -> number (returned (by_code rCode k) s) (begun l) <= times ("response"%string, k) (pipe_log pipe_init l).
Proof.
  intros R. rewrite (responses rCode why l s k R). apply number_le. intros j _. unfold returned, done_with. destruct (callers s j) as [| | | |r] eqn:C; try discriminate.
  destruct r as [a| |x]; try discriminate. destruct (q_ret _ _ _ _ (w_reqs _ _ (inv2_exec l s R)) j a C) as (r & -> & -> & _). auto.
Qed.
Definition sender (w : wire) : list nat := match w with Sent _ k _ _ => [k] | _ => [] end.
Lemma senders w : length (flat_map sender w) = number is_sent w.
Proof. unfold number. induction w as [|[n k id m|n a] w IH]; cbn; [reflexivity|rewrite IH; reflexivity|exact IH]. Qed.
Lemma response_le l s : reached l s -> named "response" (pipe_log pipe_init l) <= times (int "query") (pipe_log pipe_init l).
Proof.
  intros R. rewrite (responses_all rCode why l s R), (queries rCode why l s R), <- senders. unfold number. apply NoDup_incl_length; [apply NoDup_filter, (begun_once rCode why l s R)|].
  intros k I. apply filter_In in I. destruct I as [I D]. unfold done_with in D. destruct (reqs s k) as [r|] eqn:E; [|discriminate D]. destruct (r_done r) as [[a| |x]|] eqn:F; try discriminate D.
  destruct (q_done _ _ _ _ (w_reqs _ _ (inv2_exec l s R)) k r a E F) as (n & m & a0 & J & _). apply in_flat_map. exists (Sent n k (m_id a0) m). split; [exact J|left; reflexivity].
Qed.

(** ** The queue *)
Lemma queue_app l1 : forall s l2 m, pipe_queue s (l1 ++ l2) m = match pipe_exec s l1 with Some s1 => pipe_queue s1 l2 (pipe_queue s l1 m) | None => pipe_queue s l1 m end.
Proof.
  induction l1 as [|e l1 IH]; intros s l2 m; [reflexivity|]. cbn [app pipe_queue pipe_exec]. destruct (pipe_step s e) as [s'|]; [|reflexivity]. rewrite IH. reflexivity.
Qed.
Definition top (l : list pevent) : nat * nat := pipe_queue pipe_init l (0, 0).
Lemma top_snoc l s e s' : reached l s -> pipe_step s e = Some s' -> top (l ++ [e]) = queue_step s s' e (top l).
Proof. intros R S. unfold top. rewrite queue_app. unfold reached in R. rewrite R. cbn [pipe_queue]. rewrite S. reflexivity. Qed.
Lemma reached_snoc l s e s' : reached l s -> pipe_step s e = Some s' -> reached (l ++ [e]) s'.
Proof. intros R S. unfold reached in *. rewrite exec_app, R. cbn. rewrite S. reflexivity. Qed.
Lemma inflight_step l s e s' : reached l s -> pipe_step s e = Some s' -> length (inflight s') <= length (inflight s) \/
  exists id, e = EAdd id /\ Nat.leb (N.to_nat 65535) (length (inflight s)) = false.
Proof.
  assert (RM : forall id l, length (remove_id id l) <= length l).
  { intros id l0. unfold remove_id. induction l0 as [|x l0 IH]; [apply Nat.le_refl|]. cbn [filter]. destruct (negb _); cbn [length]; lia. }
  intros R S. pose proof (inv_exec l s R) as I. destruct (Nat.leb (N.to_nat 65535) (length (inflight s))) eqn:F.
  - left.
    steps S; try match goal with Rc : receive _ _ = Some _ |- _ => destruct (receive_spec _ _ _ Rc) as [[_ ->]|(_ & _ & ->)]; clear Rc end; fields; rewrite ?mark_inflight; try (apply Nat.le_refl); try apply RM; try (match goal with A : ?x = true, B : ?x = false |- _ => rewrite A in B; discriminate B end); try apply Nat.le_0_l; try discriminate.
    all: try (destruct (lookup _ _) as [k'|]; [destruct (Nat.eqb k' k)|]; fields; try apply Nat.le_refl; apply RM).
  - assert (DE : (exists id, e = EAdd id) \/ forall id, e <> EAdd id) by (destruct e; try (right; intros; discriminate); left; eauto).
    destruct DE as [(id & ->)|NE]; [right; eauto|]. left. clear F.
    steps S; try match goal with Rc : receive _ _ = Some _ |- _ => destruct (receive_spec _ _ _ Rc) as [[_ ->]|(_ & _ & ->)]; clear Rc end; fields; rewrite ?mark_inflight; try (apply Nat.le_refl); try apply RM; try (match goal with A : ?x = true, B : ?x = false |- _ => rewrite A in B; discriminate B end); try apply Nat.le_0_l; try (exfalso; eapply NE; reflexivity).
    all: try (destruct (lookup _ _) as [k'|]; [destruct (Nat.eqb k' k)|]; fields; try apply Nat.le_refl; apply RM).
Qed.
Lemma prefix_snoc {A} (l l1 l2 : list A) e : l ++ [e] = l1 ++ l2 -> (exists t, l = l1 ++ t) \/ l1 = l ++ [e].
Proof.
  intros H. destruct l2 as [|x l2] using rev_ind; [right; rewrite app_nil_r in H; auto|]. left. rewrite app_assoc in H. apply app_inj_tail in H. destruct H as [-> _]. eauto.
Qed.
Lemma peak_le l s e s' n : reached l s -> pipe_step s e = Some s' -> peak l n -> length (inflight s') <= n -> peak (l ++ [e]) n.
Proof.
  intros R S (H1 & l1 & l2 & s1 & -> & R1 & E1) LE. split.
  - intros m1 m2 t E Rt. destruct (prefix_snoc _ _ _ _ E) as [(u & U)| ->]; [exact (H1 m1 u t U Rt)|].
    pose proof (reached_snoc _ _ _ _ R S) as Q. unfold reached in Rt, Q. rewrite Q in Rt. injection Rt as <-. exact LE.
  - exists l1, (l2 ++ [e]), s1. rewrite app_assoc. auto.
Qed.
Lemma peak_gt l s e s' n : reached l s -> pipe_step s e = Some s' -> peak l n -> n < length (inflight s') -> peak (l ++ [e]) (length (inflight s')).
Proof.
  intros R S (H1 & _) LT. pose proof (reached_snoc _ _ _ _ R S) as Q. split.
  - intros m1 m2 t E Rt. destruct (prefix_snoc _ _ _ _ E) as [(u & U)| ->]; [specialize (H1 m1 u t U Rt); lia|]. unfold reached in Rt, Q. rewrite Q in Rt. injection Rt as <-. apply Nat.le_refl.
  - exists (l ++ [e]), [], s'. rewrite app_nil_r. auto.
Qed.
Lemma top_peak l s : reached l s -> peak l (fst (top l)) /\ snd (top l) <= fst (top l).
Proof.
  revert l s. apply (runs rCode why (fun l s _ => peak l (fst (top l)) /\ snd (top l) <= fst (top l))).
  - cbn. split; [|apply Nat.le_refl]. split; [|exists [], [], pipe_init; split; [reflexivity|split; reflexivity]].
    intros l1 l2 s1 E R. destruct l1; [|discriminate E]. injection R as <-. apply Nat.le_refl.
  - intros l s e s' _ R _ _ S (P & LE). rewrite (top_snoc _ _ _ _ R S). destruct (top l) as [mx g]. cbn [fst snd] in *.
    assert (Len : length (inflight s) <= mx) by (destruct P as [P _]; apply (P l [] s); [rewrite app_nil_r; reflexivity|exact R]).
    destruct (inflight_step _ _ _ _ R S) as [G|(id & -> & F)].
    + assert (PK : peak (l ++ [e]) mx) by (apply (peak_le _ _ _ _ _ R S P); lia).
      unfold queue_step. destruct e; cbn [fst snd]; auto.
      * destruct (Nat.leb _ _); [auto|]. destruct (Nat.ltb_spec mx (length (inflight s'))); [lia|auto].
      * destruct (Nat.ltb_spec g mx); cbn [fst snd]; split; auto; lia.
    + unfold queue_step. rewrite F. destruct (Nat.ltb_spec mx (length (inflight s'))); cbn [fst snd].
      * split; [apply (peak_gt _ _ _ _ _ R S P); assumption|lia].
      * split; [apply (peak_le _ _ _ _ _ R S P); assumption|lia].
Qed.
Lemma top_quiet l2 : forall l1 s, reached (l1 ++ l2) s -> ~ In EComplete l2 -> snd (top (l1 ++ l2)) = snd (top l1).
Proof.
  induction l2 as [|e l2 IH]; intros l1 s R N; [rewrite app_nil_r; reflexivity|].
  change (e :: l2) with ([e] ++ l2) in R |- *. rewrite app_assoc in R |- *. rewrite (IH _ s R) by (intros I; apply N; right; exact I).
  unfold reached in R. rewrite exec_app in R. destruct (pipe_exec pipe_init (l1 ++ [e])) as [s2|] eqn:E; [|discriminate R]. rewrite exec_app in E.
  destruct (pipe_exec pipe_init l1) as [s1|] eqn:E1; [|discriminate E]. cbn in E. destruct (pipe_step s1 e) as [s3|] eqn:S; [|discriminate E]. rewrite (top_snoc l1 s1 e s3 E1 S).
  unfold queue_step. destruct (top l1) as [mx g]. destruct e; try reflexivity. destruct N. left. reflexivity.
Qed.
Lemma top_complete l1 l2 s : reached (l1 ++ EComplete :: l2) s -> ~ In EComplete l2 -> peak l1 (snd (top (l1 ++ EComplete :: l2))).
Proof.
  intros R N. change (EComplete :: l2) with ([EComplete] ++ l2) in R |- *. rewrite app_assoc in R |- *. rewrite (top_quiet _ _ _ R N).
  unfold reached in R. rewrite exec_app in R. destruct (pipe_exec pipe_init (l1 ++ [EComplete])) as [s2|] eqn:E; [|discriminate R]. rewrite exec_app in E.
  destruct (pipe_exec pipe_init l1) as [s1|] eqn:E1; [|discriminate E]. cbn [pipe_exec] in E. destruct (pipe_step s1 EComplete) as [s3|] eqn:S; [|discriminate E]. rewrite (top_snoc l1 s1 _ s3 E1 S).
  destruct (top_peak l1 s1 E1) as [P LE]. unfold queue_step. destruct (top l1) as [mx g]. cbn [fst snd] in *. destruct (Nat.ltb_spec g mx); cbn [snd]; [exact P|]. replace g with mx by lia. exact P.
Qed.
End Pipe.

Definition error_keys : list string := ["querytimeout"; "open"; "inflight_full"; "send_query"; "server_term"; "server_eof"; "read"; "unexpected_a"]%string.
Lemma labels rCode why l : forall s b, In b (pipe_log rCode why s l) -> b = int "query" \/ fst b = "response"%string \/ exists k, In k error_keys /\ b = err k.
Proof.
  induction l as [|e l IH]; intros s b I; [destruct I|]. cbn [CMetrics_model.pipe_log] in I. destruct (pipe_step s e) as [s'|]; [|destruct I].
  apply in_app_or in I. destruct I as [I|I]; [|exact (IH s' b I)]. clear IH.
  destruct e; cbn [CMetrics_model.step_bumps] in I; try contradiction.
  all: repeat match type of I with In _ (match ?x with _ => _ end) => destruct x end; cbn [end_bumps] in I; try contradiction.
  all: try (destruct (why (conn s)); cbn [end_bumps] in I; try contradiction).
  all: destruct I as [<-|[]]; auto; try (right; left; reflexivity).
  all: right; right; eexists; (split; [|reflexivity]); cbn; auto 12.
Qed.
