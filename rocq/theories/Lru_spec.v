(** Specification of the store: a list of entries, most recently used first, cut to the
    capacity. No hashing, no pointers. *)
From Verif Require Import Base Lru_model.

Section Spec.
Variables (K B : Type).
Variable K_eq : forall a b : K, {a = b} + {a <> b}.

Definition keqb (a b : K) : bool := if K_eq a b then true else false.

(** most recently used first *)
Definition store := list (K * B).

Definition lookup (k : K) (s : store) : option B :=
  option_map snd (List.find (fun e => keqb k (fst e)) s).
Definition drop (k : K) (s : store) : store := filter (fun e => negb (keqb k (fst e))) s.
Definition cut (cap : Z) (s : store) : store := if (cap <=? 0)%Z then s else firstn (Z.to_nat cap) s.

Definition spec_step (cap : Z) (s : store) (o : op K B) : store * option B :=
  match o with
  | Add _ _ k b => (cut cap ((k, b) :: drop k s), None)
  | Get _ _ k => match lookup k s with
                 | Some b => ((k, b) :: drop k s, Some b)
                 | None => (s, None)
                 end
  | Del _ _ k => (drop k s, None)
  | DelFunc _ _ f => (filter (fun e => negb (f (snd e))) s, None)
  | Reset _ _ => ([], None)
  end.

Fixpoint spec_run (cap : Z) (s : store) (l : list (op K B)) : store * list (option B * nat) :=
  match l with
  | [] => (s, [])
  | o :: l' => let '(s', out) := spec_step cap s o in
               let '(s'', outs) := spec_run cap s' l' in (s'', (out, length s') :: outs)
  end.

(** Keys an operation uses; blobs are stored under the key they match. *)
Definition op_key (o : op K B) : list K :=
  match o with Add _ _ k _ | Get _ _ k | Del _ _ k => [k] | _ => [] end.
Definition keys_of (l : list (op K B)) : list K := flat_map op_key l.

(** The value most recently stored under a key and not removed since, ignoring evictions.
    The history is given oldest first. *)
Fixpoint current (acc : option B) (k : K) (l : list (op K B)) : option B :=
  match l with
  | [] => acc
  | Add _ _ k' b :: l' => current (if K_eq k k' then Some b else acc) k l'
  | Get _ _ _ :: l' => current acc k l'
  | Del _ _ k' :: l' => current (if K_eq k k' then None else acc) k l'
  | DelFunc _ _ f :: l' => current (match acc with Some b => if f b then None else acc | None => None end) k l'
  | Reset _ _ :: l' => current None k l'
  end.

(** Keys that an operation can move to the front. *)
Definition uses (o : op K B) : list K := match o with Add _ _ k _ | Get _ _ k => [k] | _ => [] end.
(** The operation leaves the entry of [k] with blob [b] in place. *)
Definition keeps (k : K) (b : B) (o : op K B) : Prop :=
  match o with
  | Add _ _ k' _ => k' <> k
  | Get _ _ _ => True
  | Del _ _ k' => k' <> k
  | DelFunc _ _ f => f b = false
  | Reset _ _ => False
  end.
End Spec.
