(** C59: the opcode of queries and the cache. *)
From Verif Require Import Base Bytes Dns Net Blob_model Blob_spec Lru_model Cache_model Cache_spec Cache_proofs5 Cache_demo.
Open Scope N_scope.

(** The cache pays no regard to the opcode: it is in the same state after two histories whose queries
    differ in the opcode only, and has the same answer for two such queries. *)
Theorem C59_state ipString pack unpack hash o c l l' : Forall2 same_event l l' ->
  exec_all ipString pack unpack hash o c l = exec_all ipString pack unpack hash o c l'.
Proof. exact (opcode_ignored ipString pack unpack hash o l l' c). Qed.
Print Assumptions C59_state.
Theorem C59_answer ipString unpack hash c q q' now : same_but_opcode q q' ->
  peek ipString unpack hash c q now = peek ipString unpack hash c q' now.
Proof. exact (opcode_peek ipString unpack hash c q q' now). Qed.
Print Assumptions C59_answer.

(** So it is not true that a query answered from the cache has the opcode of the query the answer
    was given to: after an ordinary query for a name, a NOTIFY for it is answered from the cache, with
    the opcode of a query. *)
Theorem C59_opcode_refuted :
  exists l c c' q r,
    Forall event_ok l /\ faithful toy_pack (toy_unpack "a.com." "b.com.") l /\ query_ok q /\ m_opcode q = OpcodeNotify /\
    exec_all toy_ip toy_pack (toy_unpack "a.com." "b.com.") hash7 opts (cache_new 0) l = Some c /\
    resolve_lookup toy_ip (toy_unpack "a.com." "b.com.") hash7 opts (fun m => m) q t0 c = Some (c', Some (r, FromCache)) /\
    m_opcode r = OpcodeQuery /\
    forall e q0 t a, In e l -> arrival e = Some (q0, t, a) -> m_opcode q0 = OpcodeQuery.
Proof. exact opcode_confused. Qed.
Print Assumptions C59_opcode_refuted.

Example C59_demo : same_but_opcode (query "a.com." 1) (with_opcode OpcodeNotify (query "a.com." 1)) /\
  m_opcode (with_opcode OpcodeNotify (query "a.com." 1)) = 4 /\ m_opcode (query "a.com." 1) = 0.
Proof. repeat split. Qed.
