(** Saved caches. *)
From Verif Require Import Base Bytes Dns Blob_model Cache_model Cache_spec Save_model.

Section SPEC.
Variables A E R : Type.
Variable op : E -> A -> A -> Prop.
Variable records : A -> list R.
Variable boot : option (list R) -> A -> Prop.
(** The state s' comes after s, or is it *)
Definition reach (s s' : state A R) : Prop := exists t, run op records boot s t s'.
(** The file is the cache as it was at the moment m, complete *)
Definition snapshot_of (f : option (list R)) (m : state A R) : Prop := f = Some (records (cache m)).
End SPEC.
Arguments reach {A E R}. Arguments snapshot_of {A R}.

(** The events in an execution *)
Definition events (t : list (label event)) : list event := flat_map (fun l => match l with LOp e => [e] | _ => [] end) t.
(** r is an answer that upstream gave to the question of q, in whatever process, aged, and its lifetime is not over *)
Definition given (o : options) (l : list event) (q : msg) (now : Z) (r : msg) : Prop :=
  exists e q0 t0 a n, In e l /\ arrival e = Some (q0, t0, a) /\ same_question q0 q /\ lifetime o a = Some n /\ (now <= t0 + Z.of_N n * a_second)%Z /\ aged_msg q t0 now a r.
