(** Lua values as the Go functions of lua-*.go see them. Library behaviour (gopher-lua) written down from memory of its documentation and
    source: numbers are float64; CheckNumber also takes a string that reads as a number, CheckString also takes a number; CheckInt, CheckBool,
    CheckTable, CheckUserData take nothing but their type; all of them and ArgError raise a Lua error, which does not return. *)
From Verif Require Import Base Bytes.
Local Open Scope Z_scope.

(** lua.LNumber, a float64: m * 2^e, infinite, or not a number *)
Inductive num := Fin (m e : Z) | Infinite (negative : bool) | NaN.
(** The integer part *)
Definition trunc (m e : Z) : Z := if 0 <=? e then m * 2 ^ e else Z.quot m (2 ^ (- e)).
(** lua.LNumber(n) for an unsigned integer: exact below 2^53, otherwise the nearest of the numbers with 53 bits, ties to even *)
Definition of_uint (n : N) : num :=
  let z := Z.of_N n in
  if z <? 2 ^ 53 then Fin z 0
  else
    let k := Z.log2 z - 52 in
    let q := z / 2 ^ k in let r := z mod 2 ^ k in let half := 2 ^ (k - 1) in
    Fin (if (half <? r) || ((half =? r) && Z.odd q) then q + 1 else q) k.

Section Conv.
(** What the machine makes of a number that does not fit: the language leaves it open *)
Variable far : N -> num -> N.
(** uintW(x) for a float64 x *)
Definition uint (w : N) (x : num) : N :=
  match x with
  | Fin m e => let z := trunc m e in if (0 <=? z) && (z <? 2 ^ Z.of_N w) then Z.to_N z else (far w x mod 2 ^ w)%N
  | _ => (far w x mod 2 ^ w)%N
  end.
(** int(x), 64 bits, for a float64 x *)
Definition int64 (x : num) : Z :=
  let other := Z.of_N (far 64 x mod 2 ^ 64)%N - 2 ^ 63 in
  match x with
  | Fin m e => let z := trunc m e in if (- 2 ^ 63 <=? z) && (z <? 2 ^ 63) then z else other
  | _ => other
  end.
End Conv.

(** What user data holds: pointers to a message, a question (element of a slice), a record, an EDNS0 option, or something else *)
Inductive ref := RMsg (a : nat) | RQuestion (a i : nat) | RRecord (a : nat) | ROption (a : nat) | ROther.
(** A Lua value. Of a table what Len and RawGetInt give, its elements from 1 on; a hole is LNil. *)
Inductive lval := LNil | LBool (b : bool) | LNum (x : num) | LStr (s : string) | LTab (l : list lval) | LUser (r : ref) | LFun.
