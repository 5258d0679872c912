(** C81: the connection of a DoQ client, shared by queries that run side by side. *)
From Verif Require Import Base DoqConn_model DoqConn_spec DoqConn_proofs.
Local Open Scope nat_scope.

(** There is never more than one open connection, and it is the one that queries get: none is forgotten. *)
Theorem C81_one : forall s c d, reachable s -> live s c -> (live s d -> d = c) /\ cur s = Some c.
Proof. exact one_connection. Qed.
Print Assumptions C81_one.
(** One query at a time dials or opens a stream. *)
Theorem C81_exclusive : forall s i j p q, reachable s -> nth_error (queries s) i = Some p -> nth_error (queries s) j = Some q -> inside (at_ p) -> inside (at_ q) -> i = j.
Proof. exact one_inside. Qed.
Print Assumptions C81_exclusive.
(** What must not be replayed is written only after the handshake, whoever else dials or restarts. *)
Theorem C81_replay : forall s i c, reachable s -> nth_error (queries s) i = Some (Query false (Streaming c)) ->
  exists x, nth_error (conns s) c = Some x /\ complete x = true.
Proof. exact not_replayed. Qed.
Print Assumptions C81_replay.
(** As long as the peer allows more streams, the client closes no open connection, and a query is cut off only by an end from outside. *)
Theorem C81_cut : forall ls s, roomy ls s -> closed_by_us s = [] /\ forall i b, nth_error (queries s) i = Some (Query b (Done Cut)) -> exists c, In (End c) ls.
Proof. exact cut_from_outside. Qed.
Print Assumptions C81_cut.
(** A query makes at most eight steps: one restart, no loop. *)
Theorem C81_bounded : forall ls s i, run ls init = Some s -> steps_of i ls <= 8.
Proof. exact few_steps. Qed.
Print Assumptions C81_bounded.
(** The query that has the mutex goes on, but for a handshake under way. *)
Theorem C81_progress : forall s i, reachable s -> lock s = Some i -> exists q, nth_error (queries s) i = Some q /\ inside (at_ q) /\
  (forall dial, step (Go i dial) s <> None) \/
  (exists q c x, nth_error (queries s) i = Some q /\ safe q = false /\ nth_error (conns s) c = Some x /\ alive x = true /\ complete x = false /\
     exists s', step (Handshake c) s = Some s' /\ forall dial, step (Go i dial) s' <> None).
Proof. exact holder_goes_on. Qed.
Print Assumptions C81_progress.
(** Whatever happened before, failed dials and ended connections included: the next query gets a stream if dialling works. *)
Theorem C81_recovers : forall s i b x, reachable s -> lock s = None -> nth_error (queries s) i = Some (Query b Waiting) ->
  complete x = true -> room x <> 0 -> (b = true \/ forall c y, nth_error (conns s) c = Some y -> alive y = true -> complete y = true) ->
  exists n s', run (alone i x n) s = Some s' /\ streaming s' i.
Proof. exact next_one_streams. Qed.
Print Assumptions C81_recovers.
(** One query more than the peer allows closes the connection, and cuts off all that are under way. *)
Theorem C81_limit_refuted : exists ls s, run ls init = Some s /\ (forall c, ~ In (End c) ls) /\ nth_error (queries s) 0 = Some (Query true (Done Cut)) /\ closed_by_us s = [0].
Proof. exact limit_cuts. Qed.
Print Assumptions C81_limit_refuted.
(** A query may wait while any number of others dial in vain, one after the other: its own time limit starts after that. *)
Theorem C81_wait_refuted : forall n, exists ls s, run ls init = Some s /\ nth_error (queries s) 0 = Some (Query true Waiting) /\
  length (filter (fun q => match at_ q with Done DialFailed => true | _ => false end) (queries s)) = n.
Proof. exact waits_for_all. Qed.
Print Assumptions C81_wait_refuted.

(** Two queries on one connection that completes its handshake late; it ends; a third query restarts it *)
Definition demo : list label :=
  [New true; New false; Go 0 None; Go 0 (Some (Conn true false 10)); Go 0 None; Go 0 None; Go 1 None; Handshake 0; Go 1 None; Go 1 None; Answer 0;
   End 0; Go 1 None; New true; Go 2 None; Go 2 None; Go 2 None; Go 2 (Some (Conn true true 10)); Go 2 None; Go 2 None].
Example demo_run : run demo init = Some (St [Conn false true 8; Conn true true 9] (Some 1) None [Query true (Done Answered); Query false (Done Cut); Query true (Streaming 1)] []).
Proof. vm_compute. reflexivity. Qed.
(** The second one waits for the handshake *)
Example demo_waits : exists s, run (firstn 7 demo) init = Some s /\ nth_error (queries s) 1 = Some (Query false (Awaiting false)) /\ step (Go 1 None) s = None.
Proof. eexists. split; [vm_compute; reflexivity|split; reflexivity]. Qed.
Example demo_roomy : forall s, run demo init = Some s -> roomy demo s.
Proof. intros s E. apply checked_roomy; [exact E|vm_compute; reflexivity]. Qed.
