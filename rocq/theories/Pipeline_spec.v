(** Specification of pipelined connections. Of the model the states and events are used. *)
From Verif Require Import Base Bytes Dns Client_spec Pipeline_model.
Local Open Scope nat_scope.

(** s is reached by the steps l. *)
Definition reached (l : list pevent) (s : pipe) : Prop := pipe_exec pipe_init l = Some s.

(** The message a was obtained for the query q of caller k: its query went out with some ID, and a
    message with this ID came in on the same connection; a is that message with the ID of the
    query. *)
Definition obtained (s : pipe) (k : nat) (q a : msg) : Prop :=
  exists n id a0, (id < 65536)%N /\ In (Sent n k id (set_id id q)) (wires s) /\ In (Received n a0) (wires s) /\ m_id a0 = id /\ with_id (m_id q) a0 a.

(** Request k is somewhere between the caller and its completion. *)
Definition held (s : pipe) (k : nat) : Prop :=
  main s = MGot k \/ In k (requeue s) \/ writer s = WGot k \/ (exists e, writer s = WOwn k e) \/
  (exists id, In (id, k) (inflight s)) \/ exists a, reader s = RMatch k a.
