(** C27: times of day in routes (route.go). *)
From Verif Require Import Base Bytes Dns Router_model Router_spec Router_proofs.
Local Open Scope Z_scope.

(** Parsing accepts exactly the texts hour and hour:minute in range; the empty text is no condition. *)
Theorem C27_parse t h m : t <> EmptyString -> (parseTimeOfDay t = Some (Some (TimeOfDay h m)) <-> time_text t h m).
Proof. exact (parse_time t h m). Qed.
Print Assumptions C27_parse.
Theorem C27_parse_none t : parseTimeOfDay t = Some None <-> t = EmptyString.
Proof. exact (parse_time_nil t). Qed.
Print Assumptions C27_parse_none.

(** 'before' excludes the minute, 'after' includes it. *)
Theorem C27_before h m hour minute : 0 <= m <= 59 -> 0 <= minute <= 59 ->
  (isAfter (TimeOfDay h m) hour minute = true <-> minutes hour minute < minutes h m).
Proof. exact (before_ok h m hour minute). Qed.
Print Assumptions C27_before.
Theorem C27_after h m hour minute : 0 <= m <= 59 -> 0 <= minute <= 59 ->
  (isBefore (TimeOfDay h m) hour minute = true <-> minutes h m <= minutes hour minute).
Proof. exact (after_ok h m hour minute). Qed.
Print Assumptions C27_after.

(** A route with both is open in [after, before); if that is empty, as for an interval over
    midnight, it never is. *)
Theorem C27_window h m h' m' hour minute : 0 <= m <= 59 -> 0 <= m' <= 59 -> 0 <= minute <= 59 ->
  isBefore (TimeOfDay h m) hour minute = true -> isAfter (TimeOfDay h' m') hour minute = true -> minutes h m < minutes h' m'.
Proof. exact (fun A B C X Y => window _ _ _ _ _ _ (proj1 (after_ok h m hour minute A C) X) (proj1 (before_ok h' m' hour minute B C) Y)). Qed.
Print Assumptions C27_window.

Example C27_ex : map parseTimeOfDay ["07:30"; "9"; "+5:007"; "24:00"; "7:60"; "7:"; ":5"; "-1"; "-0:0"; "1:2:3"; " 1:2"; ""]%string =
  [Some (Some (TimeOfDay 7 30)); Some (Some (TimeOfDay 9 0)); Some (Some (TimeOfDay 5 7)); None; None; None; None; None;
   Some (Some (TimeOfDay 0 0)); None; None; Some None].
Proof. vm_compute. reflexivity. Qed.
