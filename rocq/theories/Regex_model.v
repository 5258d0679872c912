(** Regular expressions as Go's regexp package (RE2 syntax) understands them, for the constructs that occur in the code with a fixed
    expression. Matching is by derivatives. Library semantics, not part of the repo. *)
From Verif Require Import Base.

Inductive regex := Emp | Eps | Cls (p : ascii -> bool) | Cat (a b : regex) | Alt (a b : regex) | Star (a : regex).
(** r+ *)
Definition plus (r : regex) : regex := Cat r (Star r).
Fixpoint nullable (r : regex) : bool :=
  match r with
  | Emp => false | Eps => true | Cls _ => false
  | Cat a b => nullable a && nullable b
  | Alt a b => nullable a || nullable b
  | Star _ => true
  end.
Fixpoint deriv (c : ascii) (r : regex) : regex :=
  match r with
  | Emp => Emp | Eps => Emp
  | Cls p => if p c then Eps else Emp
  | Cat a b => if nullable a then Alt (Cat (deriv c a) b) (deriv c b) else Cat (deriv c a) b
  | Alt a b => Alt (deriv c a) (deriv c b)
  | Star a => Cat (deriv c a) (Star a)
  end.
(** MatchString of an expression that is anchored at both ends, ^...$ *)
Fixpoint matchString (r : regex) (s : string) : bool :=
  match s with EmptyString => nullable r | String c s' => matchString (deriv c r) s' end.

Definition between (lo hi : N) (c : ascii) : bool := N.leb lo (N_of_ascii c) && N.leb (N_of_ascii c) hi.
(** [a-zA-Z], [0-9] *)
Definition alpha (c : ascii) : bool := between 97 122 c || between 65 90 c.
Definition digit09 (c : ascii) : bool := between 48 57 c.
