(** Specification of networks: all addresses as 128-bit numbers. *)
From Verif Require Import Base Bytes Cidr_spec.
Open Scope N_scope.

(** IPv4 addresses stand for ::ffff:a.b.c.d. *)
Definition val128 (x : bytes) : N := if Nat.eqb (length x) 4 then 65535 * 2 ^ 32 + ipval x else ipval x.
Definition is_v4 (x : bytes) : Prop := length x = 4%nat \/ mapped x.
(** prefix lengths of IPv4 networks count from bit 96 *)
Definition plen (a : bytes) (p : nat) : N := if Nat.eqb (length a) 4 then 96 + N.of_nat p else N.of_nat p.

(** The network a/p has x: the first bits are those of a; only networks inside ::ffff:0:0/96 have
    IPv4 addresses. *)
Definition net_has (a : bytes) (p : nat) (x : bytes) : Prop :=
  let h := 128 - plen a p in
  val128 a / 2 ^ h = val128 x / 2 ^ h /\ (plen a p < 96 -> ~ is_v4 x).

(** The text of a network: address/length *)
Definition net_text (parseAddr : string -> option bytes) (s : string) (a : bytes) (p : nat) : Prop :=
  exists s1 d v, s = (s1 ++ String "/" d)%string /\ contains "/" s1 = false /\ parseAddr s1 = Some a /\ decimal d v /\
    v <= N.of_nat (8 * length a) /\ p = N.to_nat v.
