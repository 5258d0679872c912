(** What is removed from responses for clients that did not ask for DNSSEC. *)
From Verif Require Import Base Bytes Dns.
Open Scope N_scope.

(** l' is l without the records that satisfy P. *)
Inductive without (P : rr -> Prop) : list rr -> list rr -> Prop :=
| wo_nil : without P [] []
| wo_keep r l l' : ~ P r -> without P l l' -> without P (r :: l) (r :: l')
| wo_drop r l l' : P r -> without P l l' -> without P (r :: l) l'.
Definition opt_rr (r : rr) : Prop := exists o, rr_data r = DOPT o.
(** RRSIG, NSEC and NSEC3 records that were not asked for *)
Definition dnssec_rr (qtype : N) (r : rr) : Prop := In (rr_type r) [46; 47; 50] /\ rr_type r <> qtype /\ ~ opt_rr r.
(** l' is l, but the last record of type OPT, if there is one, has its DO bit clear. *)
Definition do_cleared (l l' : list rr) : Prop :=
  (Forall (fun r => rr_type r <> 41) l /\ l' = l) \/
  exists pre r r' post, l = pre ++ r :: post /\ rr_type r = 41 /\ Forall (fun x => rr_type x <> 41) post /\ l' = pre ++ r' :: post /\
    rr_name r' = rr_name r /\ rr_type r' = 41 /\ rr_class r' = rr_class r /\ rr_data r' = rr_data r /\
    N.testbit (rr_ttl r') 15 = false /\ forall i, i <> 15 -> N.testbit (rr_ttl r') i = N.testbit (rr_ttl r) i.
(** The rest of the message is unchanged. *)
Definition same_rest (a b : msg) : Prop :=
  m_id b = m_id a /\ m_response b = m_response a /\ m_opcode b = m_opcode a /\ m_aa b = m_aa a /\ m_tc b = m_tc a /\ m_rd b = m_rd a /\ m_ra b = m_ra a /\
  m_ad b = m_ad a /\ m_cd b = m_cd a /\ m_rcode b = m_rcode a /\ m_question b = m_question a.

