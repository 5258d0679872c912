(** Texts without surrounding white space, and numbers as texts, independent of the code. *)
From Verif Require Import Base.
From Verif Require Cidr_spec.
Local Open Scope N_scope.

(** Space, tab, line feed, vertical tab, form feed, carriage return *)
Definition white (c : ascii) : Prop := In (N_of_ascii c) [32; 9; 10; 11; 12; 13].
Fixpoint all_white (s : string) : Prop := match s with EmptyString => True | String c s' => white c /\ all_white s' end.
(** t is s without the white space at both ends. *)
Definition trimmed (s t : string) : Prop :=
  (exists a b, s = (a ++ t ++ b)%string /\ all_white a /\ all_white b) /\
  (forall c u, t = String c u -> ~ white c) /\ (forall c u, t = (u ++ String c EmptyString)%string -> ~ white c).
(** The decimal text of a number: no leading zeros *)
Definition shown (n : N) (s : string) : Prop := Cidr_spec.decimal s n /\ (forall u, s = String "0" u -> u = EmptyString).
(** Relations between the characters of two texts *)
Fixpoint chars2 (R : N -> N -> Prop) (s t : string) : Prop :=
  match s, t with
  | EmptyString, EmptyString => True
  | String c s', String d t' => R (N_of_ascii c) (N_of_ascii d) /\ chars2 R s' t'
  | _, _ => False
  end.
Definition small (a b : N) : Prop := (65 <= a <= 90 /\ b = a + 32) \/ (~ 65 <= a <= 90 /\ b = a).
Definition large (a b : N) : Prop := (97 <= a <= 122 /\ a = b + 32) \/ (~ 97 <= a <= 122 /\ b = a).
(** The same, or the same letter in another case *)
Definition alike (a b : N) : Prop := a = b \/ (65 <= a <= 90 /\ b = a + 32) \/ (65 <= b <= 90 /\ a = b + 32).
Definition occurs (c : ascii) (s : string) : Prop := exists a b, s = (a ++ String c b)%string.
(** The parts, with c between every two of them *)
Inductive parts (c : ascii) : string -> list string -> Prop :=
| P_one p : ~ occurs c p -> parts c p [p]
| P_more p s l : ~ occurs c p -> parts c s l -> parts c (p ++ String c s)%string (p :: l).
(** Words with white space between, before and after them *)
Definition word (w : string) : Prop := w <> EmptyString /\ forall c, occurs c w -> ~ white c.
Inductive words : string -> list string -> Prop :=
| W_none g : all_white g -> words g []
| W_last g w : all_white g -> word w -> words (g ++ w)%string [w]
| W_more g w c s l : all_white g -> word w -> white c -> words s l -> words (g ++ w ++ String c s)%string (w :: l).
