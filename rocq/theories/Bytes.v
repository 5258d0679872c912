(** Byte sequences (lists of N below 256) and Go's encoding/binary big-endian
    functions. Library semantics, not part of the repo. *)
From Verif Require Import Base.
Open Scope N_scope.

Definition byte := N.
Definition bytes := list N.

Definition byte_ok (b : N) : Prop := b < 256.
Definition bytes_ok (l : bytes) : Prop := Forall byte_ok l.

(** []byte(s) and string(b) *)
Definition bytes_of_string (s : string) : bytes := map N_of_ascii (list_ascii_of_string s).
Definition string_of_bytes (l : bytes) : string := string_of_list_ascii (map ascii_of_N l).

(** binary.BigEndian.PutUint16 / Uint16 *)
Definition be16 (n : N) : bytes := [(n / 256) mod 256; n mod 256].
Definition de16 (l : bytes) : N := nth 0 l 0 * 256 + nth 1 l 0.

(** binary.BigEndian.PutUint64 / Uint64 *)
Definition be64 (n : N) : bytes :=
  [(n / 2^56) mod 256; (n / 2^48) mod 256; (n / 2^40) mod 256; (n / 2^32) mod 256;
   (n / 2^24) mod 256; (n / 2^16) mod 256; (n / 2^8) mod 256; n mod 256].
Definition de64 (l : bytes) : N :=
  nth 0 l 0 * 2^56 + nth 1 l 0 * 2^48 + nth 2 l 0 * 2^40 + nth 3 l 0 * 2^32 +
  nth 4 l 0 * 2^24 + nth 5 l 0 * 2^16 + nth 6 l 0 * 2^8 + nth 7 l 0.

(** uint64(x) for an int64 x, and back *)
Definition u64_of_i64 (z : Z) : N := Z.to_N (z mod 2^64)%Z.
Definition i64_of_u64 (n : N) : Z :=
  if n <? 2^63 then Z.of_N n else (Z.of_N n - 2^64)%Z.
Definition i64_ok (z : Z) : Prop := (- 2^63 <= z < 2^63)%Z.

(** copy(dst[off:], src): overwrites as much of dst as there is room for. *)
Definition put_at (off : nat) (src : bytes) (dst : bytes) : bytes :=
  let room := (length dst - off)%nat in
  firstn off dst ++ firstn room src ++ skipn (off + length (firstn room src)) dst.

(** b[i:j] *)
Definition slice (i j : nat) (l : bytes) : bytes := firstn (j - i) (skipn i l).
