(** Specification of the upstream clients. *)
From Verif Require Import Base Bytes Dns Modifiers_spec Listener_model Listener_spec Client_model.
Open Scope N_scope.

(** The response is for the question of the query, if it has one; names in any letter case. *)
Definition echoes (q a : msg) : Prop :=
  m_question q = [] \/
  exists x l y l', m_question q = x :: l /\ m_question a = y :: l' /\
    lower (q_name y) = lower (q_name x) /\ q_type y = q_type x /\ q_class y = q_class x.

(** The response delivers these octets. *)
Definition success (r : hresp) (b : bytes) : Prop :=
  200 <= hr_status r <= 299 /\ hr_broken r = false /\ hr_body r = b /\ N.of_nat (length b) <= 66047.

(** The query for QUIC: another ID, no keepalive option *)
Definition quic_query (q qc : msg) : Prop :=
  (no_edns0 q /\ qc = set_id 0 q) \/ (~ no_edns0 q /\ opt_edit (without (fun o => opt_code o = 11)) (set_id 0 q) qc).
(** a with another ID *)
Definition with_id (id : N) (a a' : msg) : Prop := m_id a' = id /\ set_id (m_id a) a' = a.

(** The query with the size of the EDNS0 record set, in a new record if there is none; 0 leaves it
    alone *)
Definition sized (size : N) (q q' : msg) : Prop :=
  (size = 0 /\ q' = q) \/
  (size <> 0 /\ no_edns0 q /\ opt_new size 0 [] q q') \/
  (size <> 0 /\ exists pre r post, m_extra q = pre ++ r :: post /\ rr_type r = 41 /\ Forall (fun x => rr_type x <> 41) post /\
     q' = set_extra (pre ++ RR (rr_name r) (rr_type r) size (rr_ttl r) (rr_data r) :: post) q).
