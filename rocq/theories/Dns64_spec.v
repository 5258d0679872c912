(** Specification of DNS64: RFC 6052 section 2.2, and when records are made. *)
From Verif Require Import Base Bytes Net Dns Cidr_spec Net_spec.
Local Open Scope nat_scope.

(** Octet i of the IPv4 address goes here: behind the prefix, octet 8 left out. *)
Definition octet_place (pl i : nat) : nat := let p := Nat.div pl 8 + i in if Nat.eqb pl 96 then p else if Nat.leb 8 p then S p else p.

(** r is the IPv4 address v embedded in the prefix a/pl *)
Record embedded (a : bytes) (pl : nat) (v r : bytes) : Prop := {
  emb_length : length r = 16;
  emb_prefix : forall j, j < Nat.div pl 8 -> nth j r 0%N = nth j a 0%N;
  emb_octets : forall i, i < 4 -> nth (octet_place pl i) r 0%N = nth i v 0%N;
  emb_u : pl <> 96 -> nth 8 r 0%N = 0%N;
  emb_suffix : forall j, Nat.div pl 8 <= j < 16 -> (forall i, i < 4 -> j <> octet_place pl i) -> nth j r 0%N = 0%N }.

(** The IPv4 address back from the IPv6 address *)
Definition extracted (pl : nat) (r : bytes) : bytes := map (fun i => nth (octet_place pl i) r 0%N) [0; 1; 2; 3].

(** The text of a prefix *)
Definition prefix_text (parseAddr : string -> option bytes) (s : string) (n : bytes * nat) : Prop :=
  net_text parseAddr s (fst n) (snd n) /\ length (fst n) = 16 /\ In (snd n) [32; 40; 48; 56; 64; 96].

(** The four octets of an IPv4 address in either form *)
Definition v4_octets (ip v : bytes) : Prop :=
  length v = 4 /\ (ip = v \/ ip = [0;0;0;0;0;0;0;0;0;0;255;255]%N ++ v).

(** x is made from the A record r for the prefix n, for a question *)
Definition made_from (x : question) (r : rr) (n : bytes * nat) (y : rr) : Prop :=
  exists ip v ip6, rr_data r = DA ip /\ v4_octets ip v /\ embedded (fst n) (snd n) v ip6 /\
    rr_name y = q_name x /\ rr_type y = 28%N /\ rr_class y = q_class x /\ rr_ttl y = rr_ttl r /\ rr_data y = DAAAA ip6.

(** records with an IPv4 address; aliases *)
Definition has_v4 (r : rr) : Prop := exists ip v, rr_data r = DA ip /\ v4_octets ip v.
Definition alias (r : rr) : Prop := exists t, rr_data r = DCNAME t.
(** the records of l with property P, in order *)
Inductive picked {A} (P : A -> Prop) : list A -> list A -> Prop :=
| picked_nil : picked P [] []
| picked_yes x l m : P x -> picked P l m -> picked P (x :: l) (x :: m)
| picked_no x l m : ~ P x -> picked P l m -> picked P (x :: l) m.

(** The same query for A records *)
Record asks_a (q q' : msg) : Prop := {
  aa_question : exists x l, m_question q = x :: l /\ m_question q' = Q (q_name x) 1 (q_class x) :: l;
  aa_rest : set_question [] q' = set_question [] q }.

(** Upstream has an answer without AAAA records, and an answer with an A record. *)
Definition needs (up : msg -> result) (q q' : msg) (a b : msg) : Prop :=
  up q = Ans a /\ m_rcode a = 0%N /\ (forall r, In r (m_answer a) -> rr_type r <> 28%N) /\
  up q' = Ans b /\ m_rcode b = 0%N /\ exists r, In r (m_answer b) /\ has_v4 r.
Definition wants (q : msg) (x : question) : Prop :=
  exists l, m_question q = x :: l /\ q_type x = 28%N /\ match is_edns0 q with Some o => opt_do o = false | None => True end.
