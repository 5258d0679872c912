(** C57: DNS over QUIC (doqclient.go Resolve, doqlistener.go handleStream). *)
From Verif Require Import Base Bytes Dns Modifiers_model Modifiers_spec Listener_model Listener_spec Listener_proofs2 Client_model Client_spec Client_proofs Client_proofs2.
Local Open Scope N_scope.

(** The client sends the query with ID 0 and without keepalive options, otherwise unchanged, after
    its length. *)
Theorem C57_sent unpack pack answer : (forall m p, pack m = Some p -> N.of_nat (length p) <= 65535) ->
  forall conn dials q c b, opt_wf q -> In (Wrote c b) (fst (doq_resolve unpack pack answer conn dials q)) ->
  exists qc p, quic_query q qc /\ pack qc = Some p /\ framed p b /\ length b = (2 + length p)%nat.
Proof. exact (doq_sent unpack pack answer). Qed.
Print Assumptions C57_sent.

(** At most one query is written. *)
Theorem C57_once unpack pack answer conn dials q :
  let writes := filter (fun e => match e with Wrote _ _ => true | _ => false end) (fst (doq_resolve unpack pack answer conn dials q)) in
  (length writes <= 1)%nat.
Proof. exact (doq_once unpack pack answer conn dials q). Qed.
Print Assumptions C57_once.

(** The reply has the ID of the query and no keepalive option. *)
Theorem C57_reply unpack pack answer : (forall b a, unpack b = Some a -> opt_wf a) ->
  forall conn dials q a, snd (doq_resolve unpack pack answer conn dials q) = Ans a -> m_id a = m_id q /\ ~ keepalive a.
Proof. exact (doq_reply_id unpack pack answer). Qed.
Print Assumptions C57_reply.

(** The server ignores queries with keepalive options. *)
Theorem C57_query unpack : (forall b q, unpack b = Some q -> opt_wf q) ->
  forall resolve pack ci hs data q ci', In (Call q ci') (fst (handleStream resolve unpack pack ci hs data)) -> ~ keepalive q /\ ci' = ci.
Proof. exact (doq_query_keepalive unpack). Qed.
Print Assumptions C57_query.

(** A message of up to 65535 octets is read back whatever follows it. *)
Theorem C57_framing p rest : N.of_nat (length p) < 65536 -> read_frame (frame p ++ rest) = Some p.
Proof. exact (frame_read p rest). Qed.
Print Assumptions C57_framing.

(** Examples *)
Definition C57_q : msg := set_extra [new_opt 1232 true [LOCAL 11 [1]; PADDING [0]; LOCAL 11 []]] (set_question [Q "a." 1 1] (set_id 77 empty_msg)).
Example C57_query_ex : doq_query C57_q = set_extra [new_opt 1232 true [PADDING [0]]] (set_question [Q "a." 1 1] empty_msg).
Proof. vm_compute. reflexivity. Qed.
Example C57_keepalive : snd (doq_resolve (fun _ => Some C57_q) (fun _ => Some [1;2]) (fun _ _ => Some [0;1;5]) None [Some (QConn 1 HsDone true)] C57_q) = Err "keepalive".
Proof. vm_compute. reflexivity. Qed.
Example C57_id : option_map m_id (match snd (doq_resolve (fun _ => Some (doq_query C57_q)) (fun _ => Some [1;2]) (fun _ _ => Some [0;1;5]) None [Some (QConn 1 HsDone true)] C57_q) with Ans a => Some a | _ => None end) = Some 77.
Proof. vm_compute. reflexivity. Qed.
Example C57_wf : opt_wf C57_q /\ keepalive C57_q.
Proof.
  split; [repeat constructor; eexists; reflexivity|]. exists [], (new_opt 1232 true [LOCAL 11 [1]; PADDING [0]; LOCAL 11 []]), [], [LOCAL 11 [1]; PADDING [0]; LOCAL 11 []], (LOCAL 11 []).
  split; [reflexivity|]. split; [reflexivity|]. split; [constructor|]. split; [reflexivity|]. split; [right; right; left; reflexivity|reflexivity].
Qed.
