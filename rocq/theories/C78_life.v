(** C78: starting and stopping a listener (the Start and Stop of all listeners and of the xsocket server). *)
From Verif Require Import Base Life_model Life_spec Life_proofs Life_proofs2 Life_proofs3.
Local Open Scope nat_scope.

(** Once a Stop that took effect has returned, no query is accepted any more, whatever happens next. *)
Theorem C78_quiet : forall k ls s, run k ls init = Some s -> took s -> forall ls' s', run k ls' s = Some s' -> ~ In Query ls'.
Proof. exact quiet. Qed.
Print Assumptions C78_quiet.

(** Start ends after that: it has at most three steps left and is never made to wait. The exception is a DoQ listener whose Accept
    failed before. *)
Theorem C78_ends : forall k ls s, run k ls init = Some s -> took s ->
  (broken s = false -> returned s \/ exists s', step k (Go true) s = Some s') /\
  forall ls' s', run k ls' s = Some s' -> gos ls' <= 3.
Proof. exact ends. Qed.
Print Assumptions C78_ends.

(** With both returned, the socket is closed, so that the address can be bound again. *)
Theorem C78_closed : forall k ls s, run k ls init = Some s -> took s -> returned s -> sock s = false.
Proof. exact closed. Qed.
Print Assumptions C78_closed.

(** When Start has returned and the socket is still open, then Start failed and the listener is one over QUIC, the xsocket server, or
    one for UDP that binds in a namespace or with socket options; or a Stop of a listener over QUIC is about to close it. *)
Theorem C78_left_open : forall k ls s ok, run k ls init = Some s -> pc s = Returned ok -> sock s = true ->
  ok = false /\ (is_quic k = true \/ k = Xs \/ k = Dns true true) \/ is_quic k = true /\ (In Close2 (stops s) \/ In Close3 (stops s)).
Proof. exact left_open. Qed.
Print Assumptions C78_left_open.

(** Stopping loses no query that is being worked on, except over QUIC; a Stop that took effect returns when they have been answered
    (not for the xsocket server), and Start of dns.Server too. *)
Theorem C78_drained : forall k ls s, run k ls init = Some s -> is_quic k = false ->
  lost s = 0 /\ (k <> Xs -> took s -> inflight s = 0) /\ (forall u a, k = Dns u a -> returned s -> inflight s = 0).
Proof. exact drained. Qed.
Print Assumptions C78_drained.

(** A Stop that does not take effect changes nothing; it says so for dns.Server only. *)
Theorem C78_early : forall k i s s' o, step k (StopStep i) s = Some s' -> nth_error (stops s) i = Some Begin -> nth_error (stops s') i = Some (Done o) -> o <> Took ->
  s' = with_stops (put i (Done o) (stops s)) s /\ (o = NotStarted <-> exists u a, k = Dns u a).
Proof. exact early. Qed.
Print Assumptions C78_early.

(** A Stop called while the listener is serving takes effect; that is why the supervisor (C51) repeats it. For dns.Server another Stop
    may have got there first. *)
Theorem C78_effective : forall k ls s i, run k ls init = Some s -> serving s = true -> nth_error (stops s) i = Some Begin ->
  exists s', step k (StopStep i) s = Some s' /\
    (nth_error (stops s') i = Some Wait \/ nth_error (stops s') i = Some Close1 \/ nth_error (stops s') i = Some (Done Took) \/
     down s = true /\ exists u a, k = Dns u a).
Proof. exact effective. Qed.
Print Assumptions C78_effective.

(** No Stop waits for anything but the queries being worked on. *)
Theorem C78_completes : forall k ls s i t, run k ls init = Some s -> inflight s = 0 -> broken s = false -> nth_error (stops s) i = Some t ->
  exists ls' s' o, run k ls' s = Some s' /\ length ls' <= 4 /\ nth_error (stops s') i = Some (Done o).
Proof. exact completes. Qed.
Print Assumptions C78_completes.

(** Every query that has come in was answered, is being worked on or was cut off. *)
Theorem C78_accounted : forall k ls s, run k ls init = Some s -> asked ls = answered ls + inflight s + lost s.
Proof. exact accounted. Qed.
Print Assumptions C78_accounted.
(** A Start that is serving when it is told to end returns, if at all (C78_spin_refuted), without an error. *)
Theorem C78_no_error : forall k ls s, run k ls init = Some s -> serving s = true -> down s = true ->
  forall ls' s' ok, run k ls' s = Some s' -> pc s' = Returned ok -> ok = true.
Proof. exact no_error. Qed.
Print Assumptions C78_no_error.
(** A run: a query is being answered while Stop waits. *)
Example C78_ex_dns : exists s, run (Dns true true) [Go true; NewStop; StopStep 0; Go true; Query; NewStop; StopStep 1; Go true; Answer; Go true; StopStep 1] init = Some s /\
  took s /\ returned s /\ stops s = [Done NotStarted; Done Took] /\ sock s = false.
Proof. eexists. split; [vm_compute; reflexivity|]. cbv. intuition eauto. Qed.
Example C78_ex_doh : exists s, run Http [Go true; NewStop; StopStep 0; Go true; StopStep 0] init = Some s /\ took s /\ sock s = true /\ ~ returned s.
Proof. eexists. split; [vm_compute; reflexivity|]. cbv. intuition eauto. destruct H. discriminate. Qed.
Example C78_ex_quic : exists s, run Quic [Go true; Go true; Query; Answer; NewStop; StopStep 0; StopStep 0; Go true; StopStep 0; StopStep 0] init = Some s /\ took s /\ returned s /\ lost s = 0.
Proof. eexists. split; [vm_compute; reflexivity|]. cbv. intuition eauto. Qed.
Example C78_ex_xs : exists s, run Xs [NewStop; StopStep 0; Go true; Go true] init = Some s /\ took s /\ pc s = Returned true /\ pub s = false.
Proof. eexists. split; [vm_compute; reflexivity|]. cbv. intuition eauto. Qed.

(** False: after a Stop without an error the listener is down. A Stop that comes before the server is published does nothing and
    returns nil; Start then serves on. *)
Theorem C78_nil_refuted : forall k, k = Http \/ k = Quic \/ k = Doq -> exists ls s, run k ls init = Some s /\ stops s = [Done Ignored] /\ pc s = Serving /\ accepts k s = true /\
  forall a s', step k a s = Some s' -> a <> Go false -> pc s' = Serving.
Proof.
  intros k [->|[->| ->]].
  - exists [NewStop; StopStep 0; Go true; Go true; Go true]. eexists. split; [vm_compute; reflexivity|]. repeat split. intros [[|]| |[|[|i]]| |] s' H N; try congruence; cbn in H; try discriminate; injection H as <-; reflexivity.
  - exists [NewStop; StopStep 0; Go true; Go true]. eexists. split; [vm_compute; reflexivity|]. repeat split. intros [[|]| |[|[|i]]| |] s' H N; try congruence; cbn in H; try discriminate; injection H as <-; reflexivity.
  - exists [NewStop; StopStep 0; Go true; Go true]. eexists. split; [vm_compute; reflexivity|]. repeat split. intros [[|]| |[|[|i]]| |] s' H N; try congruence; cbn in H; try discriminate; injection H as <-; reflexivity.
Qed.
Print Assumptions C78_nil_refuted.
(** False: stopping loses no query. *)
Theorem C78_lost_refuted : forall k, is_quic k = true -> exists ls s, run k ls init = Some s /\ took s /\ lost s = 1.
Proof.
  intros [| | | |]; try discriminate; intros _; exists [Go true; Go true; Query; NewStop; StopStep 0; StopStep 0; StopStep 0; StopStep 0]; eexists; (split; [vm_compute; reflexivity|]); cbv; auto.
Qed.
Print Assumptions C78_lost_refuted.
(** False: when Start has returned its socket is closed. Over QUIC nothing closes it when serving fails, and the supervisor calls no
    Stop then (cmd/routedns/main.go:1299-1310); the next try finds the address in use for as long as nothing else closes the socket. *)
Theorem C78_leak_refuted : exists ls s, run Quic ls init = Some s /\ stops s = [] /\ pc s = Returned false /\ sock s = true.
Proof. exists [Go true; Go true; Go false]. eexists. split; [vm_compute; reflexivity|]. cbv. auto. Qed.
Print Assumptions C78_leak_refuted.
(** False: Start of a DoQ listener returns when it can no longer accept, or at the latest after Stop. It goes round its loop for ever. *)
Theorem C78_spin_refuted : exists ls s, run Doq ls init = Some s /\ took s /\ forall ls' s', run Doq ls' s = Some s' -> ~ returned s'.
Proof.
  exists [Go true; Go true; Go false; NewStop; StopStep 0; StopStep 0; StopStep 0; StopStep 0]. eexists. split; [vm_compute; reflexivity|]. split; [cbv; auto|].
  intros ls' s' R [ok H]. apply spins in R; [congruence|reflexivity|reflexivity].
Qed.
Print Assumptions C78_spin_refuted.
(** C78_no_error and C78_accounted: DoQ, with one query answered and one cut off *)
Example C78_ex_doq : exists s s', run Doq [Go true; Go true; Query; Query; Answer; NewStop; StopStep 0; StopStep 0] init = Some s /\ serving s = true /\ down s = true /\
  run Doq [StopStep 0; StopStep 0; Go true] s = Some s' /\ pc s' = Returned true /\ lost s' = 1.
Proof. eexists. eexists. split; [vm_compute; reflexivity|]. repeat split. Qed.
