(** Port numbers in texts and the kinds of sockets for networks, independent of the code. *)
From Verif Require Import Base Bytes.
From Verif Require Router_spec XDial_model.
Local Open Scope Z_scope.

(** The text is a whole number of 64 bits, with or without sign. *)
Definition whole (s : string) (n : Z) : Prop := Router_spec.signed s n /\ - 2^63 <= n < 2^63.
(** What comes after the name of the protocol does not matter. *)
Definition begins (s pre : string) : Prop := exists rest, s = (pre ++ rest)%string.
Definition kind (network : string) (t : XDial_model.socktype) : Prop :=
  (begins network "tcp" /\ t = XDial_model.Stream) \/ (begins network "udp" /\ t = XDial_model.Dgram).
