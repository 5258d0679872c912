(** C21: pipelined upstream connections (pipeline.go). *)
From Verif Require Import Base Bytes Dns Client_spec Pipeline_model Pipeline_spec Pipeline_proofs3.
Local Open Scope nat_scope.

(** No done channel is closed twice; the IDs in flight are distinct, and so are the requests. *)
Theorem C21_safe l s : reached l s -> crash s = false /\ NoDup (map fst (inflight s)) /\ NoDup (map snd (inflight s)).
Proof. exact (pipe_safe l s). Qed.
Print Assumptions C21_safe.

(** A message returned to a caller came in with the ID its own query was sent with, on the same
    connection; it has the ID of the query and echoes its question. *)
Theorem C21_answer l s k a : reached l s -> callers s k = CRet (Ans a) -> exists q, In (ECall k q) l /\ obtained s k q a /\ echoes q a.
Proof. exact (pipe_answer l s k a). Qed.
Print Assumptions C21_answer.

(** [k] is a single call. *)
Theorem C21_call l s k q q' : reached l s -> In (ECall k q) l -> In (ECall k q') l -> q = q'.
Proof. exact (pipe_call l s k q q'). Qed.
Print Assumptions C21_call.

(** Every query is sent at most once, unchanged but for the ID. *)
Theorem C21_once l s k : reached l s ->
  length (filter (fun w => match w with Sent _ k' _ _ => Nat.eqb k' k | _ => false end) (wires s)) <= 1 /\
  forall n id m, In (Sent n k id m) (wires s) -> (id < 65536)%N /\ exists q, In (ECall k q) l /\ m = set_id id q.
Proof. exact (pipe_once l s k). Qed.
Print Assumptions C21_once.

(** When a connection ended, everything still in flight fails; the next one starts with nothing in
    flight. *)
Theorem C21_drained l s s' : reached l s -> pipe_step s EDrain = Some s' -> inflight s' = [] /\
  forall id k, In (id, k) (inflight s) -> exists r, reqs s' k = Some r /\ r_done r = Some (Err "closed").
Proof. exact (pipe_drained l s s'). Qed.
Print Assumptions C21_drained.

Theorem C21_fresh l s : reached l s -> main s = MIdle \/ (exists k, main s = MGot k) -> inflight s = [].
Proof. exact (pipe_fresh l s). Qed.
Print Assumptions C21_fresh.

(** No request gets lost: while a caller waits, its request is done or still held. *)
Theorem C21_waiting l s k : reached l s -> callers s k = CWait -> (exists r res, reqs s k = Some r /\ r_done r = Some res) \/ held s k.
Proof. exact (pipe_waiting l s k). Qed.
Print Assumptions C21_waiting.

(** A caller can always give up, and then nothing is in flight for it any more. *)
Theorem C21_returns l s k : reached l s -> callers s k = CWait -> exists s', pipe_exec s [ETimeout k; EDelete k] = Some s' /\ callers s' k = CRet (Err "timeout").
Proof. exact (pipe_returns l s k). Qed.
Print Assumptions C21_returns.

Theorem C21_forgotten l s k s' : reached l s -> pipe_step s (EDelete k) = Some s' -> forall id, ~ In (id, k) (inflight s').
Proof. exact (pipe_forgotten l s k s'). Qed.
Print Assumptions C21_forgotten.

(** Examples. Two queries with the same ID; the answers come in the other order. *)
Definition C21_q (n : string) : msg := set_question [Q n 1 1] (set_id 7 empty_msg).
Definition C21_a (n : string) (id : N) : msg := set_answer [RR n 1 1 60 (DA [1;2;3;4]%N)] (set_question [Q n 1 1] (set_id id empty_msg)).
Definition C21_start : list pevent := [ECall 1 (C21_q "a."); ECall 2 (C21_q "b."); ETakeMain 1; EDial; ETakeWriter 2; EAdd 20; EWritten; ETakeWriter 1; EAdd 10; EWritten].
Definition C21_run (l : list pevent) : option (caller * caller * list (N * nat)) :=
  option_map (fun s => (callers s 1, callers s 2, inflight s)) (pipe_exec pipe_init l).
Example C21_two : C21_run (C21_start ++ [ERead (C21_a "A." 10); EGet; EComplete; EDone 1; ERead (C21_a "b." 20); EGet; EComplete; EDone 2])
  = Some (CRet (Ans (C21_a "A." 7)), CRet (Ans (C21_a "b." 7)), []).
Proof. vm_compute. reflexivity. Qed.
(** The connection dies with both in flight. *)
Example C21_dead : C21_run (C21_start ++ [EReadFail; EStop; EWait; EDrain; EDone 1; EDone 2]) = Some (CRet (Err "closed"), CRet (Err "closed"), []).
Proof. vm_compute. reflexivity. Qed.
(** An answer is matched while writing the same query fails. *)
Example C21_race : C21_run [ECall 1 (C21_q "a."); ETakeMain 1; EDial; ETakeWriter 1; EAdd 10; ERead (C21_a "a." 10); EWriteFail "broken"; EGet; EGetBack; EComplete; EDone 1]
  = Some (CRet (Ans (C21_a "a." 7)), CNone, []).
Proof. vm_compute. reflexivity. Qed.
(** The answer of the wrong question fails the query. *)
Example C21_wrong : C21_run (C21_start ++ [ERead (C21_a "b." 10); EGet; EComplete; EDone 1]) = Some (CRet (Err "question"), CWait, [(20%N, 2)]).
Proof. vm_compute. reflexivity. Qed.
(** The answer returned may have come in before the query was sent: the one it was for timed out
    between receiving and matching, and the ID was picked again. *)
Example C21_stale : C21_run [ECall 1 (C21_q "a."); ETakeMain 1; EDial; ETakeWriter 1; EAdd 10; EWritten; ERead (C21_a "a." 10); ETimeout 1; EDelete 1;
    ECall 2 (C21_q "a."); ETakeWriter 2; EAdd 10; EGet; EComplete; EDone 2] = Some (CRet (Err "timeout"), CRet (Ans (C21_a "a." 7)), []).
Proof. vm_compute. reflexivity. Qed.
(** A query whose caller gave up early is still sent. *)
Example C21_late : option_map (fun s => (callers s 1, wires s)) (pipe_exec pipe_init [ECall 1 (C21_q "a."); ETakeMain 1; ETimeout 1; EDelete 1; EDial; ETakeWriter 1; EAdd 10])
  = Some (CRet (Err "timeout"), [Sent 1 1 10%N (set_id 10 (C21_q "a."))]).
Proof. vm_compute. reflexivity. Qed.
