(** Specification of host names: RFC 1123. *)
From Verif Require Import Base.

Definition is_digit (c : ascii) : Prop := exists d, In d (list_ascii_of_string "0123456789") /\ c = d.
Definition is_ldh (c : ascii) : Prop :=
  In c (list_ascii_of_string "0123456789abcdefghijklmnopqrstuvwxyzABCDEFGHIJKLMNOPQRSTUVWXYZ-").
(** A label: letters, digits and hyphens, no hyphen at either end; it may be empty. *)
Definition label_ok (l : string) : Prop :=
  Forall is_ldh (list_ascii_of_string l) /\ (forall s, l <> String "-" s) /\ (forall s, l <> (s ++ "-")%string).
(** text is the labels joined by dots *)
Inductive dotted : list string -> string -> Prop :=
| dotted_one l : ~ In "."%char (list_ascii_of_string l) -> dotted [l] l
| dotted_more l ls s : ~ In "."%char (list_ascii_of_string l) -> dotted ls s -> dotted (l :: ls) (l ++ String "." s).
(** A name is its labels, with or without a dot at the end. *)
Definition labels_of (name : string) (ls : list string) : Prop :=
  (exists base, name = (base ++ ".")%string /\ dotted ls base) \/ ((forall base, name <> (base ++ ".")%string) /\ dotted ls name).

(** Accepted names. Labels before the last may be empty. *)
Definition host_ok (name : string) : Prop :=
  name <> ""%string /\ (String.length name <= 255)%nat /\
  exists ls l, labels_of name (ls ++ [l]) /\ Forall label_ok (ls ++ [l]) /\ exists c, In c (list_ascii_of_string l) /\ ~ is_digit c.

(** A port *)
Fixpoint digits_value (acc : N) (s : string) : option N :=
  match s with
  | EmptyString => Some acc
  | String c s' => match index 0 (String c "") "0123456789" with Some d => digits_value (acc * 10 + N.of_nat d) s' | None => None end
  end.
Definition port_ok (s : string) : Prop := s <> ""%string /\ exists v, digits_value 0 s = Some v /\ (v <= 65535)%N.
