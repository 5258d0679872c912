(** C99: the functions that make messages out of messages (message.go, and those of the DNS library that the code uses) change what they are
    meant to change and nothing else. Other properties are stated with the help of some of them. *)
From Verif Require Import Base Bytes Dns Text_spec MsgPart_spec MsgPart_proofs.
Local Open Scope N_scope.

(** Assignments to one part of a message *)
Theorem C99_assign m : (forall v, changed m (set_id v m) [(PtId, VNum v)]) /\ (forall v, changed m (set_ra v m) [(PtRA, VBit v)]) /\
  (forall v, changed m (set_aa v m) [(PtAA, VBit v)]) /\ (forall v, changed m (set_tc v m) [(PtTC, VBit v)]) /\ (forall v, changed m (set_ad v m) [(PtAD, VBit v)]) /\
  (forall v, changed m (set_rcode_field v m) [(PtRcode, VNum v)]) /\ (forall v, changed m (set_question v m) [(PtQuestion, VQs v)]) /\
  (forall v, changed m (set_answer v m) [(PtAnswer, VRecs v)]) /\ (forall v, changed m (set_ns v m) [(PtNs, VRecs v)]) /\ (forall v, changed m (set_extra v m) [(PtExtra, VRecs v)]).
Proof. exact (setters m). Qed.
Print Assumptions C99_assign.

(** Msg.SetRcode: identifier and opcode of the request, the response bit and the code; RD and CD for ordinary queries; the first question, if any *)
Theorem C99_reply m req code : exists l, changed m (set_rcode m req code) ([(PtId, VNum (m_id req)); (PtResponse, VBit true); (PtOpcode, VNum (m_opcode req)); (PtRcode, VNum code)] ++ l) /\
  forall p v, In (p, v) l <-> v = at_part p req /\ (m_opcode req = 0 /\ (p = PtRD \/ p = PtCD)) \/ p = PtQuestion /\ exists x r, m_question req = x :: r /\ v = VQs [x].
Proof. exact (reply_parts m req code). Qed.
Print Assumptions C99_reply.
(** Msg.SetReply: the same with code 0 *)
Theorem C99_plain_reply m req : exists l, changed m (set_reply m req) ([(PtId, VNum (m_id req)); (PtResponse, VBit true); (PtOpcode, VNum (m_opcode req)); (PtRcode, VNum 0)] ++ l) /\
  forall p v, In (p, v) l <-> v = at_part p req /\ (m_opcode req = 0 /\ (p = PtRD \/ p = PtCD)) \/ p = PtQuestion /\ exists x r, m_question req = x :: r /\ v = VQs [x].
Proof. exact (plain_parts m req). Qed.
Print Assumptions C99_plain_reply.

(** Msg.IsEdns0 finds the last OPT record, and writing to what it returns changes that record only. *)
Theorem C99_edns0 m : (forall o, is_edns0 m = Some o <-> exists a b, last_opt m a o b) /\ (is_edns0 m = None <-> no_opt m) /\
  forall f a o b, last_opt m a o b -> changed m (update_edns0 f m) [(PtExtra, VRecs (a ++ f o :: b))].
Proof. exact (conj (last_opt_iff m) (conj (no_opt_iff m) (fun f => update_last f m))). Qed.
Print Assumptions C99_edns0.
(** Msg.SetEdns0 adds one at the end. *)
Theorem C99_set_edns0 size do m : exists o, bare_opt size do o /\ changed m (set_edns0 size do m) [(PtExtra, VRecs (m_extra m ++ [o]))].
Proof. exact (set_edns0_bare size do m). Qed.
Print Assumptions C99_set_edns0.
(** OPT.Do and OPT.SetDo: bit 15 of the TTL *)
Theorem C99_do b r : rr_name (opt_set_do b r) = rr_name r /\ rr_type (opt_set_do b r) = rr_type r /\ rr_class (opt_set_do b r) = rr_class r /\ rr_data (opt_set_do b r) = rr_data r /\
  opt_do (opt_set_do b r) = b /\ (forall i, i <> 15 -> N.testbit (rr_ttl (opt_set_do b r)) i = N.testbit (rr_ttl r) i) /\ (opt_do r = true <-> N.testbit (rr_ttl r) 15 = true).
Proof. exact (do_bit b r). Qed.
Print Assumptions C99_do.

(** nxdomain, servfail, refused *)
Theorem C99_codes q : made_up q 3 [] (nxdomain q) /\ made_up q 2 [] (servfail q) /\ made_up q 5 [] (refused q).
Proof. exact (codes q). Qed.
Print Assumptions C99_codes.
(** ptr: one PTR record for each name, in order; it panics for a query without question if there are names. *)
Theorem C99_ptr q names : match ptr q names with
  | Some a => exists rs, made_up q 0 rs a /\ Forall2 (ptr_record (qName q)) names rs
  | None => m_question q = [] /\ names <> []
  end.
Proof. exact (ptr_ok q names). Qed.
Print Assumptions C99_ptr.
(** setUDPSize: the size in the last OPT record, or a new one, and nothing else; 0 changes nothing. *)
Theorem C99_udpsize q size : (size = 0 -> setUDPSize q size = q) /\
  (size <> 0 -> (forall a o b, last_opt q a o b -> exists o', rr_name o' = rr_name o /\ rr_type o' = rr_type o /\ rr_class o' = size /\ rr_ttl o' = rr_ttl o /\ rr_data o' = rr_data o /\
      changed q (setUDPSize q size) [(PtExtra, VRecs (a ++ o' :: b))]) /\
    (no_opt q -> exists o, bare_opt size false o /\ changed q (setUDPSize q size) [(PtExtra, VRecs (m_extra q ++ [o]))])).
Proof. exact (udpsize q size). Qed.
Print Assumptions C99_udpsize.
(** validateResponseQuestion *)
Theorem C99_echo q a : validateResponseQuestion q a = true <-> echoes q a.
Proof. exact (echo q a). Qed.
Print Assumptions C99_echo.
(** isReplayableOpcode: QUERY and NOTIFY *)
Theorem C99_replayable n : isReplayableOpcode n = true <-> n = 0 \/ n = 4.
Proof. exact (replayable n). Qed.
Print Assumptions C99_replayable.

(** Examples *)
Definition C99_q : msg := Msg 7 false 0 false false true false false true 0 [Q "A.ex." 1 1; Q "b." 1 1] [] [] [RR "." 41 512 0 (DOPT []); RR "x." 16 1 5 (DTXT [])].
Example C99_ex_reply : servfail C99_q = Msg 7 true 0 false false true true false true 2 [Q "A.ex." 1 1] [] [] [].
Proof. reflexivity. Qed.
Example C99_ex_opt : last_opt C99_q [] (RR "." 41 512 0 (DOPT [])) [RR "x." 16 1 5 (DTXT [])] /\ m_extra (setUDPSize C99_q 1232) = [RR "." 41 1232 0 (DOPT []); RR "x." 16 1 5 (DTXT [])].
Proof. split; [|reflexivity]. split; [reflexivity|]. split; [reflexivity|]. intros r [<-|[]]. discriminate. Qed.
Example C99_ex_echo : validateResponseQuestion C99_q (set_question [Q "a.EX." 1 1] empty_msg) = true /\ validateResponseQuestion C99_q empty_msg = false /\
  validateResponseQuestion C99_q (set_question [Q "a.ex." 28 1] empty_msg) = false.
Proof. repeat split. Qed.
Example C99_ex_ptr : option_map m_answer (ptr C99_q ["h.ex"; "i."]%string) = Some [RR "A.ex." 12 1 3600 (DPTR "h.ex."); RR "A.ex." 12 1 3600 (DPTR "i.")] /\ ptr empty_msg ["h"]%string = None.
Proof. split; reflexivity. Qed.
