(** Specification of the Redis backend. *)
From Verif Require Import Base Bytes Dns Net Blob_model Cache_model Cache_spec Redis_model.
Open Scope N_scope.

(** EDNS0 presence and DO bit; the client-subnet options *)
Definition edns_do (q : msg) : option bool := option_map opt_do (is_edns0 q).
Definition is_subnet (o : edns0) : bool := match o with ECS _ _ _ _ => true | _ => false end.
Definition subnets (q : msg) : list edns0 := match is_edns0 q with Some o => filter is_subnet (opt_options o) | None => [] end.
(** prefix length and address (IPv4-mapped = IPv4) *)
Definition subnet_id (o : edns0) : N * bytes := match o with ECS _ mask _ addr => (mask, canon addr) | _ => (0, []) end.

(** Two queries ask the same, and the same way. *)
Definition same_query (q1 q2 : msg) : Prop :=
  exists x1 l1 x2 l2, m_question q1 = x1 :: l1 /\ m_question q2 = x2 :: l2 /\
    lower (q_name x1) = lower (q_name x2) /\ q_class x1 = q_class x2 /\ q_type x1 = q_type x2 /\
    m_cd q1 = m_cd q2 /\ edns_do q1 = edns_do q2 /\ map subnet_id (subnets q1) = map subnet_id (subnets q2).

(** What is used of dns.Class.String, dns.Type.String and net.IP.String: different texts for different
    values; a class begins with an upper-case letter; no colon in classes and types, no slash in addresses. *)
Definition is_upper (c : ascii) : bool := let n := N_of_ascii c in (65 <=? n) && (n <=? 90).
Definition class_text_ok (f : N -> string) : Prop :=
  (forall c, c < 65536 -> (exists x s, f c = String x s /\ is_upper x = true) /\ contains colon (f c) = false) /\
  (forall c d, c < 65536 -> d < 65536 -> f c = f d -> c = d).
Definition type_text_ok (f : N -> string) : Prop :=
  (forall c, c < 65536 -> contains colon (f c) = false) /\ (forall c d, c < 65536 -> d < 65536 -> f c = f d -> c = d).
Definition ip_no_slash (ipString : bytes -> string) : Prop := forall a, addr_ok a -> contains "/"%char (ipString a) = false.

(** Queries as they occur, with at most one client-subnet option *)
Definition rquery_ok (q : msg) : Prop := query_ok q /\ (length (subnets q) <= 1)%nat.
(** 1970 < t < 2106, in nanoseconds *)
Definition rtime_ok (t : Z) : Prop := (0 < t < 2 ^ 32 * 1000000000)%Z.
Definition revent_ok (e : revent) : Prop :=
  match e with
  | RStore q m a now _ => rquery_ok q /\ rtime_ok now /\ exists ts ex, mt_timestamp m = Some ts /\ mt_expiry m = Some ex /\ rtime_ok ts /\ rtime_ok ex
  | _ => True
  end.
(** Answers survive dns.Msg.Pack and Unpack. *)
Definition rfaithful (pack : msg -> option bytes) (unpack : bytes -> option msg) (l : list revent) : Prop :=
  forall q m a now room w, In (RStore q m a now room) l -> pack a = Some w -> unpack w = Some a.
(** The second, counted from 1970, that a time is in; the time of Go that was never set is the start of the year 1. *)
Definition in_second (t : option Z) (s : Z) : Prop := match t with Some n => s * 1000000000 <= n < (s + 1) * 1000000000 | None => s = -62135596800 end%Z.
(** The time of the second *)
Definition whole (t : Z) : Z := (t / 1000000000 * 1000000000)%Z.
