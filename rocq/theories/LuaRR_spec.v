(** What a script may rely on when it reads and writes the fields of records. *)
From Verif Require Import Base Bytes Net LuaVal_model LuaRR_model.

(** A number is the integer z. *)
Definition denotes (x : num) (z : Z) : Prop :=
  exists m e, x = Fin m e /\ ((0 <= e -> m * 2 ^ e = z) /\ (e < 0 -> m = z * 2 ^ (- e)))%Z.
(** A number is z, or if z is large, differs from it by at most z / 2^53. *)
Definition close (x : num) (z : Z) : Prop :=
  (z <= 2 ^ 53 /\ denotes x z \/ 2 ^ 53 < z /\ exists z', denotes x z' /\ Z.abs (z' - z) * 2 ^ 53 <= z)%Z.

(** The fields of a record by name, those of embedded structs among them *)
Fixpoint members (t : ftype) (v : fval) : list (string * kind * fval) :=
  match t with
  | FHdr => []
  | FPlain n k => [(n, k, v)]
  | FStruct fs =>
      match v with
      | VStruct vs => (fix both (fs : list ftype) (vs : list fval) := match fs, vs with f :: fs', x :: vs' => members f x ++ both fs' vs' | _, _ => [] end) fs vs
      | _ => []
      end
  end.
Definition fields (r : rr) : list (string * kind * fval) := members (FStruct (rr_type r)) (VStruct (rr_vals r)).

(** Values have the type of their field. *)
Definition typed (k : kind) (v : fval) : Prop :=
  match k, v with
  | KIP, VIP _ | KStr, VStr _ | KStrs, VStrs _ | KEdns, VEdns _ | KOpaque, VOpaque _ => True
  | KU8, VU8 n => (n < 2 ^ 8)%N | KU16, VU16 n => (n < 2 ^ 16)%N | KU32, VU32 n => (n < 2 ^ 32)%N | KU64, VU64 n => (n < 2 ^ 64)%N
  | KU16s, VU16s l => Forall (fun n => (n < 2 ^ 16)%N) l
  | _, _ => False
  end.
Definition flat (fs : list ftype) : Prop := Forall (fun f => match f with FStruct _ => False | _ => True end) fs.
Definition matches (fs : list ftype) (vs : list fval) : Prop :=
  Forall2 (fun f v => match f with FHdr => v = VHdr | FPlain _ k => typed k v | FStruct _ => False end) fs vs.
Definition header_names : list string := ["name"; "rtype"; "class"; "ttl"; "rdlength"]%string.
(** Names do not collide in lower case, with each other and with those of the header. *)
Definition plain_names (fs : list ftype) : list string := flat_map (fun f => match f with FPlain n _ => [lower n] | _ => [] end) fs.
Definition names_ok (fs : list ftype) : Prop := NoDup (plain_names fs) /\ forall n, In n (plain_names fs) -> ~ In n (""%string :: header_names).
(** The types of the DNS library: a header and fields, or another such struct embedded *)
Definition type_ok (t : list ftype) : Prop := (flat t /\ names_ok t) \/ exists fs, t = [FStruct fs] /\ flat fs /\ names_ok fs.
Definition record_ok (r : rr) : Prop :=
  type_ok (rr_type r) /\ (matches (rr_type r) (rr_vals r) \/ exists fs vs, rr_type r = [FStruct fs] /\ rr_vals r = [VStruct vs] /\ matches fs vs) /\
  (h_type (rr_hdr r) < 2 ^ 16 /\ h_class (rr_hdr r) < 2 ^ 16 /\ h_ttl (rr_hdr r) < 2 ^ 32 /\ h_rdlen (rr_hdr r) < 2 ^ 16)%N.

(** How a value is shown to a script *)
Inductive shows (ipString : bytes -> string) : fval -> lval -> Prop :=
| shows_str : forall s, shows ipString (VStr s) (LStr s)
| shows_8 : forall n x, denotes x (Z.of_N n) -> shows ipString (VU8 n) (LNum x)
| shows_16 : forall n x, denotes x (Z.of_N n) -> shows ipString (VU16 n) (LNum x)
| shows_32 : forall n x, denotes x (Z.of_N n) -> shows ipString (VU32 n) (LNum x)
| shows_64 : forall n x, close x (Z.of_N n) -> shows ipString (VU64 n) (LNum x)
| shows_16s : forall l l', Forall2 (fun n v => exists x, v = LNum x /\ denotes x (Z.of_N n)) l l' -> shows ipString (VU16s l) (LTab l')
| shows_strs : forall l, shows ipString (VStrs l) (LTab (map LStr l))
| shows_no_ip : shows ipString (VIP None) LNil
| shows_ip : forall ip, shows ipString (VIP (Some ip)) (LStr (ipString ip))
| shows_options : forall l l', Forall2 (fun a v => v = LUser (ROption a)) l l' -> shows ipString (VEdns l) (LTab l').

(** Lua values that a field takes *)
Inductive fits (parseIP : string -> option bytes) : kind -> lval -> Prop :=
| fits_str : forall s, fits parseIP KStr (LStr s)
| fits_8 : forall x, fits parseIP KU8 (LNum x)
| fits_16 : forall x, fits parseIP KU16 (LNum x)
| fits_32 : forall x, fits parseIP KU32 (LNum x)
| fits_64 : forall x, fits parseIP KU64 (LNum x)
| fits_16s : forall l, (forall v, In v l -> exists x, v = LNum x) -> fits parseIP KU16s (LTab l)
| fits_strs : forall l, (forall v, In v l -> exists s, v = LStr s) -> fits parseIP KStrs (LTab l)
| fits_no_ip : fits parseIP KIP LNil
| fits_ip : forall s ip, parseIP s = Some ip -> fits parseIP KIP (LStr s)
| fits_options : forall l, (forall v, In v l -> exists a, v = LUser (ROption a)) -> fits parseIP KEdns (LTab l).
(** The value that is stored then. Numbers: the integer if there is one that has w bits; nothing is said about other numbers. *)
Definition stores (w : N) (x : num) (n : N) : Prop := (n < 2 ^ w)%N /\ forall z, denotes x z -> (0 <= z < 2 ^ Z.of_N w)%Z -> n = Z.to_N z.
Inductive takes (parseIP : string -> option bytes) : lval -> fval -> Prop :=
| takes_str : forall s, takes parseIP (LStr s) (VStr s)
| takes_8 : forall x n, stores 8 x n -> takes parseIP (LNum x) (VU8 n)
| takes_16 : forall x n, stores 16 x n -> takes parseIP (LNum x) (VU16 n)
| takes_32 : forall x n, stores 32 x n -> takes parseIP (LNum x) (VU32 n)
| takes_64 : forall x n, stores 64 x n -> takes parseIP (LNum x) (VU64 n)
| takes_16s : forall l l', Forall2 (fun v n => exists x, v = LNum x /\ stores 16 x n) l l' -> takes parseIP (LTab l) (VU16s l')
| takes_strs : forall l, takes parseIP (LTab (map LStr l)) (VStrs l)
| takes_no_ip : takes parseIP LNil (VIP None)
| takes_ip : forall s ip, parseIP s = Some ip -> takes parseIP (LStr s) (VIP (Some ip))
| takes_options : forall l, takes parseIP (LTab (map (fun a => LUser (ROption a)) l)) (VEdns l).

(** The names and types of the fields of a type *)
Fixpoint columns (t : ftype) : list (string * kind) := match t with FHdr => [] | FPlain n k => [(n, k)] | FStruct fs => flat_map columns fs end.
(** A script may assign v to a name *)
Inductive assignable (parseIP : string -> option bytes) (t : list ftype) : string -> lval -> Prop :=
| assignable_name : forall s, assignable parseIP t "name" (LStr s)
| assignable_class : forall x, assignable parseIP t "class" (LNum x)
| assignable_ttl : forall x, assignable parseIP t "ttl" (LNum x)
| assignable_field : forall g k v, In (g, k) (columns (FStruct t)) -> fits parseIP k v -> assignable parseIP t (lower g) v.
(** The effect of an assignment: that field has the value, everything else is as it was. *)
Inductive assigned (parseIP : string -> option bytes) (name : string) (v : lval) (r r' : rr) : Prop :=
| assigned_name : forall s, name = "name"%string -> v = LStr s -> r' = RR (Hdr s (h_type (rr_hdr r)) (h_class (rr_hdr r)) (h_ttl (rr_hdr r)) (h_rdlen (rr_hdr r))) (rr_type r) (rr_vals r) ->
    assigned parseIP name v r r'
| assigned_class : forall x n, name = "class"%string -> v = LNum x -> stores 16 x n ->
    r' = RR (Hdr (h_name (rr_hdr r)) (h_type (rr_hdr r)) n (h_ttl (rr_hdr r)) (h_rdlen (rr_hdr r))) (rr_type r) (rr_vals r) -> assigned parseIP name v r r'
| assigned_ttl : forall x n, name = "ttl"%string -> v = LNum x -> stores 32 x n ->
    r' = RR (Hdr (h_name (rr_hdr r)) (h_type (rr_hdr r)) (h_class (rr_hdr r)) n (h_rdlen (rr_hdr r))) (rr_type r) (rr_vals r) -> assigned parseIP name v r r'
| assigned_field : forall a b g k old new, fields r = a ++ (g, k, old) :: b -> fields r' = a ++ (g, k, new) :: b -> lower g = name -> takes parseIP v new ->
    rr_hdr r' = rr_hdr r -> rr_type r' = rr_type r -> assigned parseIP name v r r'.

(** Two Lua values that are the same to a script *)
Inductive alike : lval -> lval -> Prop :=
| alike_same : forall v, alike v v
| alike_num : forall x y z, denotes x z -> denotes y z -> alike (LNum x) (LNum y)
| alike_tab : forall l l', Forall2 alike l l' -> alike (LTab l) (LTab l').
(** Values that a field can hold as they are: integers of its size, addresses written as they are printed *)
Definition whole (w : N) (x : num) : Prop := exists z, denotes x z /\ (0 <= z < 2 ^ Z.of_N w)%Z.
Inductive faithful (ipString : bytes -> string) (parseIP : string -> option bytes) : kind -> lval -> Prop :=
| faithful_str : forall s, faithful ipString parseIP KStr (LStr s)
| faithful_8 : forall x, whole 8 x -> faithful ipString parseIP KU8 (LNum x)
| faithful_16 : forall x, whole 16 x -> faithful ipString parseIP KU16 (LNum x)
| faithful_32 : forall x, whole 32 x -> faithful ipString parseIP KU32 (LNum x)
| faithful_64 : forall x, whole 53 x -> faithful ipString parseIP KU64 (LNum x)
| faithful_16s : forall l, (forall v, In v l -> exists x, v = LNum x /\ whole 16 x) -> faithful ipString parseIP KU16s (LTab l)
| faithful_strs : forall l, (forall v, In v l -> exists s, v = LStr s) -> faithful ipString parseIP KStrs (LTab l)
| faithful_no_ip : faithful ipString parseIP KIP LNil
| faithful_ip : forall s ip, parseIP s = Some ip -> ipString ip = s -> faithful ipString parseIP KIP (LStr s)
| faithful_options : forall l, (forall v, In v l -> exists a, v = LUser (ROption a)) -> faithful ipString parseIP KEdns (LTab l).
Inductive precise (ipString : bytes -> string) (parseIP : string -> option bytes) (fs : list (string * kind * fval)) : string -> lval -> Prop :=
| precise_name : forall s, precise ipString parseIP fs "name" (LStr s)
| precise_class : forall x, whole 16 x -> precise ipString parseIP fs "class" (LNum x)
| precise_ttl : forall x, whole 32 x -> precise ipString parseIP fs "ttl" (LNum x)
| precise_field : forall g k old v, In (g, k, old) fs -> faithful ipString parseIP k v -> precise ipString parseIP fs (lower g) v.

(** The same address, in the short or long form of an IPv4 address *)
Definition same_ip (a b : bytes) : Prop := a = b \/ exists q, to4 a = Some q /\ to4 b = Some q.
Definition same_value (x y : fval) : Prop := x = y \/ exists a b, x = VIP (Some a) /\ y = VIP (Some b) /\ same_ip a b.
(** Addresses are read as they are printed. *)
Definition ip_text (ipString : bytes -> string) (parseIP : string -> option bytes) : Prop :=
  forall ip, (length ip = 4 \/ length ip = 16)%nat -> Forall (fun b => b < 256)%N ip -> exists ip', parseIP (ipString ip) = Some ip' /\ same_ip ip ip'.
Definition same_record (r r' : rr) : Prop :=
  rr_hdr r' = rr_hdr r /\ rr_type r' = rr_type r /\ Forall2 (fun f f' => fst f = fst f' /\ same_value (snd f) (snd f')) (fields r) (fields r').
(** Values that survive being read and written: integers up to 2^53, addresses of 4 or 16 bytes *)
Definition lossless (v : fval) : Prop :=
  match v with VU64 n => (n <= 2 ^ 53)%N | VIP (Some ip) => (length ip = 4 \/ length ip = 16)%nat /\ Forall (fun b => b < 256)%N ip | _ => True end.

(** A record has under a name what a script asked for. *)
Inductive holds (parseIP : string -> option bytes) (r : rr) : string -> lval -> Prop :=
| holds_name : holds parseIP r "name" (LStr (h_name (rr_hdr r)))
| holds_class : forall x, stores 16 x (h_class (rr_hdr r)) -> holds parseIP r "class" (LNum x)
| holds_ttl : forall x, stores 32 x (h_ttl (rr_hdr r)) -> holds parseIP r "ttl" (LNum x)
| holds_field : forall g k x v, In (g, k, x) (fields r) -> takes parseIP v x -> holds parseIP r (lower g) v.
(** What a field holds in a new record *)
Definition initial (k : kind) (v : fval) : Prop :=
  match k with
  | KIP => v = VIP None | KStr => v = VStr "" | KU8 => v = VU8 0 | KU16 => v = VU16 0 | KU32 => v = VU32 0 | KU64 => v = VU64 0
  | KU16s => v = VU16s [] | KStrs => v = VStrs [] | KEdns => v = VEdns [] | KOpaque => v = VOpaque 0
  end.
