(** Specification of fastest-tcp. *)
From Verif Require Import Base Bytes Dns.
Local Open Scope nat_scope.

(** The first 32 records of type T *)
Definition candidates (T : N) (l : list rr) : list rr := firstn 32 (filter (fun r => N.eqb (rr_type r) T) l).

(** l' is l with its first records of type T replaced, in order, by ns *)
Inductive replaced (T : N) : list rr -> list rr -> list rr -> Prop :=
| rep_end l : replaced T l [] l
| rep_hit x l n ns l' : rr_type x = T -> replaced T l ns l' -> replaced T (x :: l) (n :: ns) (n :: l')
| rep_miss x l ns l' : rr_type x <> T -> replaced T l ns l' -> replaced T (x :: l) ns (x :: l').

(** r' is r with a TTL of at least m *)
Definition raised (m : N) (r r' : rr) : Prop :=
  rr_name r' = rr_name r /\ rr_type r' = rr_type r /\ rr_class r' = rr_class r /\ rr_data r' = rr_data r /\ rr_ttl r' = N.max (rr_ttl r) m.

(** The probes of n records: each finishes at most once. *)
Definition probes (n : nat) (arr : list (nat * bool)) : Prop := NoDup (map fst arr) /\ Forall (fun x => fst x < n) arr.
(** The probe of a record succeeded: its data is an address and the connection was made. *)
Definition succeeded (c : list rr) (x : nat * bool) : Prop :=
  snd x = true /\ exists r, nth_error c (fst x) = Some r /\ exists ip, rr_data r = DA ip \/ rr_data r = DAAAA ip.
(** The probes give an order: all succeeded, or the first one did. *)
Definition usable (waitAll : bool) (c : list rr) (arr : list (nat * bool)) : Prop :=
  if waitAll then length arr = length c /\ Forall (succeeded c) arr
  else exists x rest, arr = x :: rest /\ succeeded c x.
Definition applies (q a : msg) (T : N) : Prop :=
  exists x l, m_question q = x :: l /\ q_type x = T /\ (T = 1%N \/ T = 28%N) /\ 2 <= length (candidates T (m_answer a)).
(** b is a with another answer section *)
Definition same_but_answer (a b : msg) : Prop :=
  m_id b = m_id a /\ m_response b = m_response a /\ m_opcode b = m_opcode a /\ m_aa b = m_aa a /\ m_tc b = m_tc a /\ m_rd b = m_rd a /\
  m_ra b = m_ra a /\ m_ad b = m_ad a /\ m_cd b = m_cd a /\ m_rcode b = m_rcode a /\ m_question b = m_question a /\ m_ns b = m_ns a /\ m_extra b = m_extra a.
(** records of c in the order given by ks, raised *)
Definition in_order (m : N) (c : list rr) (ks : list nat) (ns : list rr) : Prop :=
  Forall2 (fun k y => exists r, nth_error c k = Some r /\ raised m r y) ks ns.
