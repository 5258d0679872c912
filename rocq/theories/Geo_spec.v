(** Specification of lists by location and by autonomous system *)
From Verif Require Import Base Bytes Cidr_spec.
Local Open Scope N_scope.

(** The number on a line: it is written before a comment, if there is one, and may be surrounded by white space. *)
Definition numbered (line : string) (v : N) : Prop :=
  ~ blank line /\ exists text, contains "#" text = false /\
    (trim_space line = text \/ exists comment, trim_space line = (text ++ String "#" comment)%string) /\ decimal (trim_space text) v.
(** A line that can be loaded *)
Definition loadable (line : string) : Prop := blank line \/ exists v, numbered line v /\ v < 2^64.
(** The numbers a list names *)
Definition named (rules : list string) (v : N) : Prop := exists line, In line rules /\ numbered line v.
