(** Specification: the octets a sequence of records carries. *)
From Verif Require Import Base Bytes Dtls_model.
Local Open Scope nat_scope.

(** The data of the records of up to 4096 octets *)
Fixpoint record_data (l : list input) : bytes :=
  match l with
  | [] => []
  | Rec d :: l => (if N.leb (N.of_nat (length d)) 4096 then d else []) ++ record_data l
  | Fault :: l => record_data l
  end.
(** The failures among them, records that are too large included *)
Fixpoint faults (l : list input) : nat :=
  match l with
  | [] => 0
  | Rec d :: l => (if N.leb (N.of_nat (length d)) 4096 then 0 else 1) + faults l
  | Fault :: l => 1 + faults l
  end.
(** The octets still to be delivered *)
Definition stream (s : bytes * list input) : bytes := fst s ++ record_data (snd s).
