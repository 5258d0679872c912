(** Words for the life of a listener. *)
From Verif Require Import Base Life_model.
Local Open Scope nat_scope.
Definition returned (s : st) : Prop := exists ok, pc s = Returned ok.
(** A call of Stop has returned, and it did something. *)
Definition took (s : st) : Prop := In (Done Took) (stops s).
Fixpoint gos (ls : list label) : nat := match ls with [] => 0 | Go _ :: l => S (gos l) | _ :: l => gos l end.
Definition is_quic (k : kind) : bool := match k with Quic | Doq => true | _ => false end.
(** How many queries have come in, and how many have been answered *)
Fixpoint asked (ls : list label) : nat := match ls with [] => 0 | Query :: l => S (asked l) | _ :: l => asked l end.
Fixpoint answered (ls : list label) : nat := match ls with [] => 0 | Answer :: l => S (answered l) | _ :: l => answered l end.
