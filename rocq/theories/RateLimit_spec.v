(** Specification of the rate limiter: counting over the history of queries. *)
From Verif Require Import Base Bytes Cidr_spec Net_spec.
Open Scope N_scope.

(** Clients share a subnet: both IPv4 and the first p4 bits agree, or both IPv6 and the first p6 bits agree. *)
Definition same_subnet (p4 p6 : N) (x y : bytes) : Prop :=
  (is_v4 x /\ is_v4 y /\ val128 x / 2 ^ (32 - p4) = val128 y / 2 ^ (32 - p4)) \/
  (~ is_v4 x /\ ~ is_v4 y /\ val128 x / 2 ^ (128 - p6) = val128 y / 2 ^ (128 - p6)).

(** Times share a window of w seconds, counted from 1970. *)
Definition same_window (w : Z) (t u : Z) : Prop := exists k, (k * w <= t < (k + 1) * w)%Z /\ (k * w <= u < (k + 1) * w)%Z.

(** n queries of the history satisfy P *)
Inductive count {A} (P : A -> Prop) : list A -> N -> Prop :=
| count_nil : count P [] 0
| count_yes x l n : P x -> count P l n -> count P (x :: l) (n + 1)
| count_no x l n : ~ P x -> count P l n -> count P (x :: l) n.

(** The text form of addresses: Go's net.IP.String is injective up to the IPv4-mapped form. *)
Definition ip_text (ipString : bytes -> string) : Prop :=
  forall a b, ip_ok a -> ip_ok b -> (ipString a = ipString b <-> val128 a = val128 b).

(** The queries come with non-decreasing times, after the first window of 1970. *)
Fixpoint ordered (w : Z) (last : Z) (h : list (Z * bytes)) : Prop :=
  match h with [] => True | (t, _) :: h' => (last <= t)%Z /\ ordered w t h' end.
