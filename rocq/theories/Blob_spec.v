(** What the stored form of a cache entry has to satisfy, independent of its layout. *)
From Verif Require Import Base Bytes Dns Blob_model.
Open Scope N_scope.

(** A key whose fields fit the Go types (uint16, uint16, uint8) and whose strings are at
    most 65535 bytes. *)
Definition key_ok (k : lruKey) : Prop :=
  q_type (k_q k) < 65536 /\ q_class (k_q k) < 65536 /\ k_mask k < 256 /\
  (N.of_nat (String.length (q_name (k_q k))) <= 65535) /\ (N.of_nat (String.length (k_net k)) <= 65535).

(** Times representable as int64 nanoseconds; the Unix epoch instant itself is not used
    (it is indistinguishable from the zero time in stored form). *)
Definition time_ok (t : gotime) : Prop :=
  match t with None => True | Some n => i64_ok n /\ n <> 0%Z end.
Definition meta_ok (m : meta) : Prop := time_ok (mt_timestamp m) /\ time_ok (mt_expiry m).

(** The fields a stored entry is read back with: key, metadata, message. *)
Record entry := Entry { e_key : lruKey; e_meta : meta; e_wire : bytes }.
