(** C49: DNSSEC records are removed for clients that did not ask for them. *)
From Verif Require Import Base Bytes Dns Dnssec_model Strip_spec Strip_proofs.
Local Open Scope N_scope.

(** With DO set, the response is unchanged. *)
Theorem C49_do : forall a had qtype, stripDNSSEC a true had qtype = a.
Proof. exact strip_do. Qed.
Print Assumptions C49_do.
(** A client without EDNS0 gets no RRSIG, NSEC, NSEC3 that it did not ask for and no OPT record, and all the rest in order. *)
Theorem C49_plain : forall a qtype, let b := stripDNSSEC a false false qtype in
  without (dnssec_rr qtype) (m_answer a) (m_answer b) /\ without (dnssec_rr qtype) (m_ns a) (m_ns b) /\
  without (fun r => dnssec_rr qtype r \/ opt_rr r) (m_extra a) (m_extra b) /\ same_rest a b.
Proof. exact strip_plain. Qed.
Print Assumptions C49_plain.
(** A client with EDNS0 but without DO gets the OPT record with DO clear. *)
Theorem C49_edns : forall a qtype, let b := stripDNSSEC a false true qtype in
  without (dnssec_rr qtype) (m_answer a) (m_answer b) /\ without (dnssec_rr qtype) (m_ns a) (m_ns b) /\
  (exists extra, without (dnssec_rr qtype) (m_extra a) extra /\ do_cleared extra (m_extra b)) /\ same_rest a b.
Proof. exact strip_edns. Qed.
Print Assumptions C49_edns.
(** Upstream, the query is sent with DO set in its last OPT record, or in a new one, and a size of 4096; nothing else changes. *)
Theorem C49_upstream : forall q, let u := upstream_query q in
  same_rest q u /\ m_answer u = m_answer q /\ m_ns u = m_ns q /\
  ((Forall (fun r => rr_type r <> 41) (m_extra q) /\ exists o, m_extra u = m_extra q ++ [o] /\ rr_type o = 41 /\ rr_class o = 4096 /\ N.testbit (rr_ttl o) 15 = true /\ rr_data o = DOPT []) \/
   exists pre r r' post, m_extra q = pre ++ r :: post /\ rr_type r = 41 /\ Forall (fun x => rr_type x <> 41) post /\ m_extra u = pre ++ r' :: post /\
     rr_name r' = rr_name r /\ rr_type r' = 41 /\ rr_class r' = 4096 /\ rr_data r' = rr_data r /\ N.testbit (rr_ttl r') 15 = true /\ forall i, i <> 15 -> N.testbit (rr_ttl r') i = N.testbit (rr_ttl r) i).
Proof. exact upstream_ok. Qed.
Print Assumptions C49_upstream.

(** A response with an address, its signature, a denial and an OPT record *)
Definition a1 : rr := RR "a." 1 1 60 (DA [1; 2; 3; 4]).
Definition s1 : rr := RR "a." 46 1 60 (DRRSIG 1 8 1 60 2000 1000 7 "." "x").
Definition n1 : rr := RR "a." 47 1 60 (DNSEC "b." [1]).
Definition o1 : rr := RR "." 41 4096 32768 (DOPT []).
Definition m1 : msg := Msg 1 true 0 false false true true true false 0 [Q "a." 1 1] [a1; s1] [n1] [o1].
Example C49_strips : let b := stripDNSSEC m1 false false 1 in m_answer b = [a1] /\ m_ns b = [] /\ m_extra b = [].
Proof. vm_compute. auto. Qed.
Example C49_asked : m_answer (stripDNSSEC m1 false true 46) = [a1; s1] /\ m_extra (stripDNSSEC m1 false true 46) = [RR "." 41 4096 0 (DOPT [])].
Proof. vm_compute. auto. Qed.
