(** net.IP and net.IPNet of Go's standard library (trusted base). An IP is a byte list of
    length 4 or 16; [] is nil. *)
From Verif Require Import Base Bytes.
Open Scope N_scope.

Definition v4prefix : bytes := [0;0;0;0;0;0;0;0;0;0;255;255].

(** IP.To4 *)
Definition to4 (ip : bytes) : option bytes :=
  if Nat.eqb (length ip) 4 then Some ip
  else if Nat.eqb (length ip) 16 then
    if list_eq_dec N.eq_dec (firstn 12 ip) v4prefix then Some (skipn 12 ip) else None
  else None.

(** IP.To16 *)
Definition to16 (ip : bytes) : option bytes :=
  if Nat.eqb (length ip) 4 then Some (v4prefix ++ ip)
  else if Nat.eqb (length ip) 16 then Some ip else None.

(** The canonical form used by Contains: IPv4 (also mapped) as 4 bytes. *)
Definition canon (ip : bytes) : bytes := match to4 ip with Some x => x | None => ip end.

(** net.IPNet: address and mask bytes *)
Record ipnet := IPNet { n_ip : bytes; n_mask : bytes }.

(** networkNumberAndMask *)
Definition netnum_mask (n : ipnet) : bytes * bytes :=
  let ip := match to4 (n_ip n) with
            | Some x => x
            | None => if Nat.eqb (length (n_ip n)) 16 then n_ip n else []
            end in
  if Nat.eqb (length ip) 0 then ([], [])
  else if Nat.eqb (length (n_mask n)) 4 then
    if Nat.eqb (length ip) 4 then (ip, n_mask n) else ([], [])
  else if Nat.eqb (length (n_mask n)) 16 then
    (ip, if Nat.eqb (length ip) 4 then skipn 12 (n_mask n) else n_mask n)
  else ([], []).

Fixpoint and_eq (a b m : bytes) : bool :=
  match a, b, m with
  | x :: a', y :: b', z :: m' => N.eqb (N.land x z) (N.land y z) && and_eq a' b' m'
  | _, _, _ => true
  end.

(** IPNet.Contains *)
Definition ipnet_contains (n : ipnet) (ip : bytes) : bool :=
  let '(nn, m) := netnum_mask n in
  let ip' := canon ip in
  if Nat.eqb (length ip') (length nn) then and_eq nn ip' m else false.

(** net.CIDRMask(ones, bits), as bytes *)
Fixpoint mask_bytes (ones : nat) (n : nat) : bytes :=
  match n with
  | O => []
  | S n' => (if Nat.leb 8 ones then 255 else 256 - 2^(N.of_nat (8 - ones))) mod 256
            :: mask_bytes (ones - 8) n'
  end.

(** IP.Mask *)
Fixpoint land_bytes (a m : bytes) : bytes :=
  match a, m with
  | x :: a', y :: m' => N.land x y :: land_bytes a' m'
  | _, _ => []
  end.
