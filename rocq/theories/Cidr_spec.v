(** Specification of CIDR lists: networks as arithmetic on address values. *)
From Verif Require Import Base Bytes.
Open Scope N_scope.

(** The value of an address read as a big-endian number *)
Definition ipval (a : bytes) : N := fold_left (fun v b => v * 256 + b) a 0.

(** An address is 4 or 16 bytes. *)
Definition ip_ok (a : bytes) : Prop := bytes_ok a /\ (length a = 4%nat \/ length a = 16%nat).

(** Does the network a/p contain x: same family and the same first p bits *)
Definition in_net (a : bytes) (p : nat) (x : bytes) : Prop :=
  length a = length x /\
  let host := N.of_nat (8 * length a - p) in ipval a / 2 ^ host = ipval x / 2 ^ host.

(** The first address of the network a/p *)
Definition first_addr (a : bytes) (p : nat) (f : bytes) : Prop :=
  bytes_ok f /\ length f = length a /\
  let host := N.of_nat (8 * length a - p) in ipval f = ipval a / 2 ^ host * 2 ^ host.

(** IPv4-mapped IPv6 addresses, ::ffff:0:0/96 *)
Definition mapped (a : bytes) : Prop := length a = 16%nat /\ ipval a / 2 ^ 32 = 65535.

(** An IPv4-mapped address stands for the IPv4 address. *)
Definition plain_addr (ip x : bytes) : Prop :=
  (~ mapped ip /\ x = ip) \/ (exists pre, mapped ip /\ ip = pre ++ x /\ length x = 4%nat).

(** Decimal numerals *)
Fixpoint decimal_from (acc : N) (s : string) : option N :=
  match s with
  | EmptyString => Some acc
  | String c s' => let n := N_of_ascii c in
                   if (48 <=? n) && (n <=? 57) then decimal_from (acc * 10 + (n - 48)) s' else None
  end.
Definition decimal (s : string) (v : N) : Prop := s <> EmptyString /\ decimal_from 0 s = Some v.

Section Lines.
Variable parseAddr : string -> option bytes.

(** Lines that hold no rule *)
Definition blank (line : string) : Prop :=
  trim_space line = EmptyString \/ exists s, trim_space line = ("#" ++ s)%string.

(** The network a line stands for: address/length, or a single address *)
Inductive denotes (line : string) : bytes -> nat -> Prop :=
| Den_net s d a v : trim_space line = (s ++ String "/" d)%string -> contains "/" s = false ->
    parseAddr s = Some a -> decimal d v -> v <= N.of_nat (8 * length a) -> denotes line a (N.to_nat v)
| Den_ip a : contains "/" (trim_space line) = false -> parseAddr (trim_space line) = Some a ->
    denotes line a (8 * length a).

(** A line that holds a rule, and its network *)
Definition rule_of (line : string) (a : bytes) (p : nat) : Prop := ~ blank line /\ denotes line a p.

(** What is known of netip.ParseAddr *)
Definition parse_ok : Prop :=
  forall s a, parseAddr s = Some a ->
    ip_ok a /\ (length a = 4%nat -> contains "." s = true) /\ (length a = 16%nat -> contains ":" s = true).

(** A single IPv6 address written with a dotted quad *)
Definition dotted (line : string) (a : bytes) : Prop :=
  contains "/" (trim_space line) = false /\ contains "." (trim_space line) = true /\ length a = 16%nat.
(** The network the list takes a line for. It is the one the line stands for, but an IPv6 address with a
    dotted quad becomes a /32, and a network of IPv4-mapped addresses one with the address 0.0.0.0. *)
Inductive effective (line : string) : bytes -> nat -> Prop :=
| Eff_plain a p : rule_of line a p -> ~ mapped a -> ~ dotted line a -> effective line a p
| Eff_dotted a p : rule_of line a p -> ~ mapped a -> dotted line a -> effective line a 32
| Eff_mapped a p : rule_of line a p -> mapped a -> effective line [0; 0; 0; 0] (Nat.min p 32).

(** Lines the list handles as written *)
Definition regular (line : string) : Prop := forall a p, rule_of line a p -> ~ mapped a /\ ~ dotted line a.
End Lines.
