(** Files as seen from outside *)
From Verif Require Import Base Bytes AtomicFile_model.
Open Scope N_scope.

(** Permission bits and content of the file with the name, if there is one *)
Definition file (f : fs) (p : path) : option (N * list N) :=
  match lookup p (f_dir f) with Some i => match nth_error (f_nodes f) i with Some n => Some (N.land (n_mode n) 511, n_data n) | None => None end | None => None end.
(** The permissions that a new version has: those of the file, or rw------- if there was none *)
Definition perm (f : fs) (p : path) : N := match file f p with Some (m, _) => m | None => 384 end.
(** The state before: nothing is in flux. *)
Definition quiet (f : fs) : Prop :=
  f_old f = [] /\ (forall p i, lookup p (f_dir f) = Some i -> exists n, nth_error (f_nodes f) i = Some n /\ n_safe n = true).
(** The call has renamed its file; it will report, or has reported, success. *)
Definition committed (p : pc) : Prop := (exists tmp, p = Remove tmp false) \/ exists l, p = Done false l.
(** The file is the complete result of a call that has got that far. *)
Definition result_of (ws : list writer) (ps : list pc) (f0 : fs) (p : path) (x : option (N * list N)) : Prop :=
  exists k w c, nth_error ws k = Some w /\ nth_error ps k = Some c /\ committed c /\ w_target w = p /\ w_fails w = false /\ x = Some (perm f0 p, List.concat (w_chunks w)).
(** Names of temporary files *)
Definition temporary (p : path) : bool := String.prefix ".routedns-tmp-" (snd p).
