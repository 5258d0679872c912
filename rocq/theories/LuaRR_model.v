(** Records in Lua: lua-rr.go. The record types of the DNS library are quantified: any struct made of a header and fields of the types that
    lua-rr.go:136-171 knows, or one such struct embedded in another. Quantified: printing and reading of IP addresses, numbers out of range. *)
From Verif Require Import Base Bytes LuaVal_model.

(** Types of fields, lua-rr.go:136-168; KOpaque: []APLPrefix and []SVCBKeyValue *)
Inductive kind := KIP | KStr | KU8 | KU16 | KU32 | KU64 | KU16s | KStrs | KEdns | KOpaque.
(** The fields of a struct type, all exported: the header, a plain field, an embedded struct *)
Inductive ftype := FHdr | FPlain (name : string) (k : kind) | FStruct (fs : list ftype).
(** A value of a struct; VHdr stands where the header is *)
Inductive fval := VHdr | VIP (ip : option bytes) | VStr (s : string) | VU8 (n : N) | VU16 (n : N) | VU32 (n : N) | VU64 (n : N)
| VU16s (l : list N) | VStrs (l : list string) | VEdns (l : list nat) | VOpaque (n : nat) | VStruct (l : list fval).
Record hdr := Hdr { h_name : string; h_type : N; h_class : N; h_ttl : N; h_rdlen : N }.
Record rr := RR { rr_hdr : hdr; rr_type : list ftype; rr_vals : list fval }.

(** lua-rr.go:123-176 rrFieldsForType: where a field is, and its type, by its name in lower case. A later entry replaces an earlier one. *)
Fixpoint fieldsFor (t : ftype) (index : list nat) : list (string * (list nat * kind)) :=
  match t with
  | FStruct fs =>
      (fix go (fs : list ftype) (i : nat) (acc : list (string * (list nat * kind))) :=
         match fs with
         | [] => acc
         | FHdr :: fs' => go fs' (S i) acc
         | FPlain n k :: fs' => go fs' (S i) ((lower n, (index ++ [i], k)) :: acc)
         | (FStruct _ as f) :: _ => fieldsFor f [i]
         end) fs 0%nat []
  | _ => []
  end.
Fixpoint find_field {A} (name : string) (l : list (string * A)) : option A :=
  match l with [] => None | (n, a) :: l' => if String.eqb name n then Some a else find_field name l' end.
(** lua-rr.go:112-121 rrDB, of the type of a record *)
Definition rrDB (t : list ftype) : list (string * (list nat * kind)) := fieldsFor (FStruct t) [].

(** reflect's FieldByIndex, reading and writing. None: panic. *)
Fixpoint fieldByIndex (vs : list fval) (index : list nat) : option fval :=
  match index with
  | [] => None
  | [i] => nth_error vs i
  | i :: rest => match nth_error vs i with Some (VStruct l) => fieldByIndex l rest | _ => None end
  end.
Fixpoint put_nth {A} (i : nat) (x : A) (l : list A) : list A :=
  match l, i with [], _ => [] | _ :: l', O => x :: l' | y :: l', S i' => y :: put_nth i' x l' end.
Fixpoint setByIndex (vs : list fval) (index : list nat) (x : fval) : list fval :=
  match index with
  | [] => vs
  | [i] => put_nth i x vs
  | i :: rest => match nth_error vs i with Some (VStruct l) => put_nth i (VStruct (setByIndex l rest x)) vs | _ => vs end
  end.

Section Text.
Variable far : N -> num -> N.
(** net.IP's String and net.ParseIP *)
Variable ipString : bytes -> string.
Variable parseIP : string -> option bytes.

(** lua-rr.go:251-254, 264-271, 293-300, 322-325, 335-338, 348-351, 361-364, 374-380, 398-414, 439-443, the get functions. None: an error *)
Definition getField (k : kind) (v : fval) : option lval :=
  match k, v with
  | KStr, VStr s => Some (LStr s)
  | KStrs, VStrs l => Some (LTab (map LStr l))
  | KU16s, VU16s l => Some (LTab (map (fun n => LNum (of_uint n)) l))
  | KU8, VU8 n | KU16, VU16 n | KU32, VU32 n | KU64, VU64 n => Some (LNum (of_uint n))
  | KIP, VIP None => Some LNil
  | KIP, VIP (Some ip) => Some (LStr (ipString ip))
  | KEdns, VEdns l => Some (LTab (map (fun a => LUser (ROption a)) l))
  | _, _ => None
  end.
(** The loops over a table: stop at the first element of another type *)
Fixpoint strings (l : list lval) : option (list string) :=
  match l with [] => Some [] | LStr s :: l' => option_map (cons s) (strings l') | _ => None end.
Fixpoint numbers (w : N) (l : list lval) : option (list N) :=
  match l with [] => Some [] | LNum x :: l' => option_map (cons (uint far w x)) (numbers w l') | _ => None end.
Fixpoint options (l : list lval) : option (list nat) :=
  match l with [] => Some [] | LUser (ROption a) :: l' => option_map (cons a) (options l') | _ => None end.
(** lua-rr.go:256-262, 273-291, 302-320, 327-333, 340-346, 353-359, 366-372, 382-396, 416-438, 445-449, the set functions: the value that
    is stored. SetUint of a shorter integer cuts off the upper bits. None: an error *)
Definition setField (k : kind) (v : lval) : option fval :=
  match k, v with
  | KStr, LStr s => Some (VStr s)
  | KStrs, LTab l => option_map VStrs (strings l)
  | KU16s, LTab l => option_map VU16s (numbers 16 l)
  | KU8, LNum x => Some (VU8 (uint far 64 x mod 2 ^ 8))
  | KU16, LNum x => Some (VU16 (uint far 64 x mod 2 ^ 16))
  | KU32, LNum x => Some (VU32 (uint far 64 x mod 2 ^ 32))
  | KU64, LNum x => Some (VU64 (uint far 64 x))
  | KIP, LStr s => match parseIP s with Some ip => Some (VIP (Some ip)) | None => None end
  | KIP, LNil => Some (VIP None)
  | KEdns, LTab l => option_map VEdns (options l)
  | _, _ => None
  end.

(** lua-rr.go:178-204 *)
Definition get (r : rr) (name : string) : option lval :=
  if String.eqb name "name" then Some (LStr (h_name (rr_hdr r)))
  else if String.eqb name "rtype" then Some (LNum (of_uint (h_type (rr_hdr r))))
  else if String.eqb name "class" then Some (LNum (of_uint (h_class (rr_hdr r))))
  else if String.eqb name "ttl" then Some (LNum (of_uint (h_ttl (rr_hdr r))))
  else if String.eqb name "rdlength" then Some (LNum (of_uint (h_rdlen (rr_hdr r))))
  else
    match find_field name (rrDB (rr_type r)) with
    | None => None
    | Some (index, k) => match fieldByIndex (rr_vals r) index with Some v => getField k v | None => None end
    end.
(** lua-rr.go:206-244: the record after it, and whether there was no error *)
Definition set (r : rr) (name : string) (v : lval) : rr * bool :=
  let h := rr_hdr r in
  if String.eqb name "name" then
    match v with LStr s => (RR (Hdr s (h_type h) (h_class h) (h_ttl h) (h_rdlen h)) (rr_type r) (rr_vals r), true) | _ => (r, false) end
  else if String.eqb name "rtype" then (r, false)
  else if String.eqb name "class" then
    match v with LNum x => (RR (Hdr (h_name h) (h_type h) (uint far 16 x) (h_ttl h) (h_rdlen h)) (rr_type r) (rr_vals r), true) | _ => (r, false) end
  else if String.eqb name "ttl" then
    match v with LNum x => (RR (Hdr (h_name h) (h_type h) (h_class h) (uint far 32 x) (h_rdlen h)) (rr_type r) (rr_vals r), true) | _ => (r, false) end
  else if String.eqb name "rdlength" then (r, false)
  else
    match find_field name (rrDB (rr_type r)) with
    | None => (r, false)
    | Some (index, k) =>
        match setField k v with
        | Some x => (RR h (rr_type r) (setByIndex (rr_vals r) index x), true)
        | None => (r, false)
        end
    end.
(** lua-rr.go:84-101 __newindex, of a record and a string *)
Definition newindex (r : rr) (name : string) (v : lval) : rr * bool := if String.eqb name "" then (r, true) else set r name v.

(** The zero value of a type *)
Fixpoint zero (t : ftype) : fval :=
  match t with
  | FHdr => VHdr
  | FPlain _ k =>
      match k with
      | KIP => VIP None | KStr => VStr "" | KU8 => VU8 0 | KU16 => VU16 0 | KU32 => VU32 0 | KU64 => VU64 0
      | KU16s => VU16s [] | KStrs => VStrs [] | KEdns => VEdns [] | KOpaque => VOpaque 0
      end
  | FStruct fs => VStruct (map zero fs)
  end.
(** dns.TypeToRR *)
Variable typeToRR : N -> option (list ftype).
Definition is_rtype (k : lval) : bool := match k with LStr s => String.eqb s "rtype" | _ => false end.
(** lua-rr.go:41-57, the entries of a table (keys and values) in the order in which ForEach has them *)
Fixpoint fill (rtype : N) (entries : list (lval * lval)) (r : rr) (ok : bool) : rr * bool :=
  match entries with
  | [] => (r, ok)
  | (k, v) :: rest =>
      match k with
      | LStr s =>
          if String.eqb s "rtype" then
            let h := rr_hdr r in fill rtype rest (RR (Hdr (h_name h) rtype (h_class h) (h_ttl h) (h_rdlen h)) (rr_type r) (rr_vals r)) ok
          else let '(r', done) := set r s v in fill rtype rest r' (ok && done)
      | _ => fill rtype rest r false
      end
  end.
(** lua-rr.go:24-65 RR.new. None: an error *)
Definition new (entries : list (lval * lval)) : option rr :=
  match List.find (fun e => is_rtype (fst e)) entries with
  | Some (_, LNum x) =>
      let rtype := uint far 16 x in
      match typeToRR rtype with
      | None => None
      | Some t => let '(r, ok) := fill rtype entries (RR (Hdr "" 0 0 0 0) t (map zero t)) true in if ok then Some r else None
      end
  | _ => None
  end.
End Text.
