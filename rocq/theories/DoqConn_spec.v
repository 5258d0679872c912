(** What a user expects of the connection of a DoQ client. *)
From Verif Require Import Base DoqConn_model.
Local Open Scope nat_scope.

Definition reachable (s : st) : Prop := exists ls, run ls init = Some s.
(** Between Lock and Unlock *)
Definition inside (p : pc) : Prop := match p with Dialing _ | Awaiting _ | Opening _ => True | _ => False end.
Definition live (s : st) (c : nat) : Prop := exists x, nth_error (conns s) c = Some x /\ alive x = true.
(** A run in which the peer never stops allowing new streams on an open connection *)
Inductive roomy : list label -> st -> Prop :=
| roomy_nil : roomy [] init
| roomy_snoc : forall ls s a s', roomy ls s -> step a s = Some s' -> (forall c x, nth_error (conns s') c = Some x -> alive x = true -> room x <> 0) -> roomy (ls ++ [a]) s'.
(** The steps of query i *)
Fixpoint steps_of (i : nat) (ls : list label) : nat :=
  match ls with [] => 0 | Go j _ :: ls' => (if i =? j then 1 else 0) + steps_of i ls' | _ :: ls' => steps_of i ls' end.
