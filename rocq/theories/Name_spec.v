(** Names as sequences of labels, and the canonical order of RFC 4034 section 6.1. *)
From Verif Require Import Base Bytes.
Open Scope N_scope.

(** A name: its labels, most specific first; the root has none. *)
Notation name := (list (list N)).
Definition label_ok (l : list N) : Prop := l <> [] /\ Forall (fun b => b < 256) l.
Definition name_ok (n : name) : Prop := Forall label_ok n.
(** Letters in lower case *)
Definition lc (b : N) : N := if (65 <=? b) && (b <=? 90) then b + 32 else b.
Definition lname (n : name) : name := map (map lc) n.
Definition same_name (a b : name) : Prop := lname a = lname b.
(** a is n or below n *)
Definition below (n a : name) : Prop := exists pre, lname a = pre ++ lname n.

(** Labels as left-justified octet sequences: the absence of an octet sorts first. *)
Inductive label_lt : list N -> list N -> Prop :=
| ll_nil y b : label_lt [] (y :: b)
| ll_head x y a b : x < y -> label_lt (x :: a) (y :: b)
| ll_tail x a b : label_lt a b -> label_lt (x :: a) (x :: b).
(** Names are sorted by their most significant, i.e. rightmost, labels; the arguments are reversed names. *)
Inductive labels_lt : name -> name -> Prop :=
| nl_nil y b : labels_lt [] (y :: b)
| nl_head x y a b : label_lt x y -> labels_lt (x :: a) (y :: b)
| nl_tail x a b : labels_lt a b -> labels_lt (x :: a) (x :: b).
Definition name_lt (a b : name) : Prop := labels_lt (rev (lname a)) (rev (lname b)).
