(** What a user expects of the buffers that the cache shares. *)
From Verif Require Import Base Pool_model.
Local Open Scope nat_scope.

(** A call as the code makes it: the header has ten bytes, a message is not empty and is shorter than the room asked for it *)
Definition sound (c : call) : Prop := length (header c) = 10 /\ wire c <> [] /\ length (wire c) < need c.
Definition made (ls : list label) : Prop := forall c, In (New c) ls -> sound c.
Definition reachable (cap : nat) (s : st) : Prop := exists ls, made ls /\ run cap ls init = Some s.
(** The bytes that a call is to store *)
Definition meant (c : call) : list byte := match knd c with Memory => wire c | _ => header c ++ wire c end.
(** The pointer that a call has, and the arrays it reads or writes *)
Definition holds (x : pc) : option nat :=
  match x with Pack p _ _ _ | Move p _ _ _ | Head p _ _ | Adopt p _ | Choose p _ | Read p _ _ | Put p _ _ => Some p | _ => None end.
Definition uses (x : pc) : list nat :=
  match x with Pack _ b a _ => [b; a] | Move _ a r _ => [a; r] | Head _ r _ | Adopt _ r | Choose _ r | Read _ r _ => [r] | _ => [] end.
(** A write in the background: from taking a place of the semaphore to giving it back *)
Definition background (cx : call * pc) : bool :=
  match knd (fst cx), snd cx with Async, Read _ _ _ | Async, Put _ true _ | Async, Release _ => true | _, _ => false end.
Definition writers (s : st) : nat := length (filter background (calls s)).
Definition finished (x : pc) : Prop := match x with Done _ => True | _ => False end.
(** The steps of call i *)
Fixpoint steps_of (i : nat) (ls : list label) : nat :=
  match ls with
  | [] => 0
  | (Go j | Get j _) :: ls' => (if i =? j then 1 else 0) + steps_of i ls'
  | _ :: ls' => steps_of i ls'
  end.
Definition no_drop (ls : list label) : Prop := forall n, ~ In (Drop n) ls.
