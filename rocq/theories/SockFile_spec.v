(** What a user expects of the socket of the xsocket server. *)
From Verif Require Import Base SockFile_model.
Local Open Scope nat_scope.

(** A client that connects to the path gets to server i, and the file has that mode *)
Definition reaches (s : st) (i : nat) (mode : N) : Prop :=
  exists n p, entry s = Some (Sock n mode) /\ nth_error (pcs s) i = Some p /\ (p = Chmod n \/ p = Serving n \/ exists r, p = Unlink n r \/ p = Close n r).
Definition serves (s : st) (i : nat) : Prop := exists n, nth_error (pcs s) i = Some (Serving n).
Definition ended (s : st) (i : nat) (r : result) : Prop := nth_error (pcs s) i = Some (Ended r).
(** Inside listen *)
Definition starting (s : st) (i : nat) : Prop :=
  exists p, nth_error (pcs s) i = Some p /\ (p = Dial \/ p = Remove \/ (exists b, p = Bind b) \/ exists n, p = Listen n \/ p = Chmod n).
Definition one_at_a_time (s : st) : Prop := forall i j, starting s i -> starting s j -> i = j.
(** Other programs leave alone the file of a server that is not at its end *)
Definition hands_off (s : st) (a : label) : Prop :=
  match a with
  | Env _ => forall n m i p, entry s = Some (Sock n m) -> nth_error (pcs s) i = Some p -> socket p <> Some n
  | _ => True
  end.
(** Runs in which other programs keep to that, and each state has the property P *)
Inductive history (P : st -> Prop) (abstract : bool) (modes : nat -> N) (dflt : N) : list label -> st -> Prop :=
| h_nil : forall e, match e with Some (Sock _ _) => False | _ => True end -> history P abstract modes dflt [] (init e)
| h_snoc : forall ls s a s', history P abstract modes dflt ls s -> hands_off s a -> step abstract modes dflt a s = Some s' -> P s' ->
    history P abstract modes dflt (ls ++ [a]) s'.
(** No two servers are inside listen at the same time *)
Definition orderly := history one_at_a_time.
Definition any_order := history (fun _ => True).
(** The mode the file should have *)
Definition wanted (modes : nat -> N) (dflt : N) (i : nat) : N := if N.eqb (modes i) 0 then dflt else modes i.
(** Nobody serves, or is about to *)
Definition nobody (s : st) : Prop := forall i p, nth_error (pcs s) i = Some p -> exists r, p = Ended r.
Fixpoint alone (i : nat) (ls : list label) : Prop := match ls with [] => True | a :: ls' => a = Go i true /\ alone i ls' end.
(** How often server i makes a step *)
Fixpoint steps_of (i : nat) (ls : list label) : nat :=
  match ls with [] => 0 | Go j _ :: ls' => (if i =? j then 1 else 0) + steps_of i ls' | _ :: ls' => steps_of i ls' end.
