(** What a user expects of the watcher of namespaces. *)
From Verif Require Import Base Watch_model.

Definition reachable (limit : nat) (s : st) : Prop := exists f ls, run limit ls (init f) = Some s.
(** No two states in succession are the same *)
Definition alternates (l : list bool) : Prop := forall x b c y, l = x ++ b :: c :: y -> c = negb b.
Inductive part_of : list bool -> list bool -> Prop :=
| part_nil : part_of [] []
| part_take : forall b k l, part_of k l -> part_of (b :: k) (b :: l)
| part_skip : forall b k l, part_of k l -> part_of k (b :: l).
(** The events for a name that wait to be read *)
Fixpoint events_for (n : string) (q : list (option (string * bool))) : list bool :=
  match q with [] => [] | Some (m, b) :: q' => if String.eqb m n then b :: events_for n q' else events_for n q' | None :: q' => events_for n q' end.
Definition latest (l : list bool) (b : bool) : Prop := exists k, l = k ++ [b].
(** [y] is [x] after an event with state [b]: the state is sent unless it is the one sent last, or 16 wait to be received (and then [s_full] says so) *)
Definition told (b : bool) (x y : sub) : Prop :=
  s_id y = s_id x /\ s_name y = s_name x /\
  (latest (s_sent x) b /\ s_ch y = s_ch x /\ s_sent y = s_sent x /\ s_full y = false \/
   ~ latest (s_sent x) b /\ length (s_ch x) = 16%nat /\ s_ch y = s_ch x /\ s_sent y = s_sent x /\ s_full y = true \/
   ~ latest (s_sent x) b /\ (length (s_ch x) < 16)%nat /\ s_ch y = s_ch x ++ [b] /\ s_sent y = s_sent x ++ [b] /\ s_full y = false).
Definition ids (s : st) : list nat := map j_id (joins s) ++ map s_id (subs s) ++ map s_id (former s).
