From Verif Require Import Base RunNs_model.
Local Open Scope nat_scope.

(** Runs in which switching back never fails, and no other thread saves its namespace while the main thread is in a call *)
Inductive orderly : nstate -> list nact -> nstate -> Prop :=
| O_nil s : orderly s [] s
| O_cons s a s' l s'' : nstep s a = Some s' ->
    (forall th t o r, a = Step th false -> s_phase s th <> Leaving t o r) ->
    (forall th t, a = Step th true -> s_phase s th = Opening t -> th = 0 \/ s_phase s 0 = Idle) ->
    orderly s' l s'' -> orderly s (a :: l) s''.
