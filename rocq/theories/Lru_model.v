(** Model of the LRU cache, lru-cache.go:22-34, 129-285: a hash index plus a doubly-linked
    list of heap items between two sentinels. *)
From Verif Require Import Base.
Open Scope nat_scope.

(** Address of a cacheItem. *)
Notation ptr_t := nat (only parsing).

Definition upd {A} (f : ptr_t -> A) (a : ptr_t) (v : A) : ptr_t -> A :=
  fun x => if Nat.eqb x a then v else f x.

Section Lru.
(** [K] is lruKey, [B] the stored blob; [matches] is cacheBlob.matchesKey, [hash] is
    maphash.Comparable with the seed of the instance (lru-cache.go:177-179), an arbitrary
    function. *)
Variables (K B : Type).
Variable matches : B -> K -> bool.
Variable hash : K -> N.
Variable nilblob : B.

(** lru-cache.go:22-34. [items] is the Go map, at most one binding per hash. The heap is
    one function per field of cacheItem; [fresh] is the allocator. *)
Record lru := Lru {
  maxItems : Z;
  items : list (N * ptr_t);
  head : ptr_t; tail : ptr_t;
  prev : ptr_t -> ptr_t; next : ptr_t -> ptr_t;
  ihash : ptr_t -> N; blob : ptr_t -> B;
  fresh : ptr_t }.

Definition set_items v (c : lru) := Lru (maxItems c) v (head c) (tail c) (prev c) (next c) (ihash c) (blob c) (fresh c).
Definition set_prev a v (c : lru) := Lru (maxItems c) (items c) (head c) (tail c) (upd (prev c) a v) (next c) (ihash c) (blob c) (fresh c).
Definition set_next a v (c : lru) := Lru (maxItems c) (items c) (head c) (tail c) (prev c) (upd (next c) a v) (ihash c) (blob c) (fresh c).
Definition set_blob a v (c : lru) := Lru (maxItems c) (items c) (head c) (tail c) (prev c) (next c) (ihash c) (upd (blob c) a v) (fresh c).

(** Go map operations on the index *)
Fixpoint map_get (h : N) (m : list (N * ptr_t)) : option ptr_t :=
  match m with [] => None | (h', i) :: m' => if N.eqb h h' then Some i else map_get h m' end.
Definition map_del (h : N) (m : list (N * ptr_t)) : list (N * ptr_t) :=
  filter (fun p => negb (N.eqb h (fst p))) m.
Definition map_set (h : N) (i : ptr_t) (m : list (N * ptr_t)) : list (N * ptr_t) := (h, i) :: map_del h m.

(** lru-cache.go:129-142 newLRUCache and 232-241 reset: two fresh sentinels. *)
Definition newLRUCache (capacity : Z) : lru :=
  Lru capacity [] 0 1 (fun _ => 0) (fun _ => 1) (fun _ => 0%N) (fun _ => nilblob) 2.

Definition reset (c : lru) : lru :=
  let h := fresh c in
  let t := S (fresh c) in
  Lru (maxItems c) [] h t (upd (prev c) t h) (upd (next c) h t) (ihash c) (blob c) (S (S (fresh c))).

(** lru-cache.go:171-175 unlink. [None]: nil dereference, which is what unlinking a sentinel
    would do (head.prev and tail.next are nil). *)
Definition unlink (i : ptr_t) (c : lru) : option lru :=
  if Nat.eqb i (head c) || Nat.eqb i (tail c) then None
  else
    let c := set_next (prev c i) (next c i) c in
    let c := set_prev (next c i) (prev c i) c in
    Some (set_items (map_del (ihash c i) (items c)) c).

(** lru-cache.go:222-229 resize. The loop has fuel; [None] also stands for running on. *)
Fixpoint resize_loop (fuel : nat) (c : lru) : option lru :=
  if (Z.of_nat (length (items c)) <=? maxItems c)%Z then Some c
  else match fuel with
       | O => None
       | S fuel' => match unlink (prev c (tail c)) c with
                    | None => None
                    | Some c' => resize_loop fuel' c'
                    end
       end.
Definition resize (c : lru) : option lru :=
  if (maxItems c <=? 0)%Z then Some c else resize_loop (length (items c)) c.

(** The four assignments that link an item in behind the head, in the order of
    lru-cache.go:162-165 and 200-203. *)
Definition link_front (i : ptr_t) (c : lru) : lru :=
  let c := set_next i (next c (head c)) c in
  let c := set_prev i (head c) c in
  let c := set_prev (next c (head c)) i c in
  set_next (head c) i c.

(** &cacheItem{hash: h, blob: b} in addKey, lru-cache.go:152 *)
Definition alloc (h : N) (b : B) (c : lru) : lru :=
  Lru (maxItems c) (items c) (head c) (tail c) (prev c) (next c)
      (upd (ihash c) (fresh c) h) (upd (blob c) (fresh c) b) (S (fresh c)).

(** lru-cache.go:157-159: an entry under the same hash is unlinked *)
Definition displace (h : N) (c : lru) : option lru :=
  match map_get h (items c) with Some e => unlink e c | None => Some c end.

(** lru-cache.go:156-168 insert, with the allocation of the item by the caller *)
Definition insert (h : N) (b : B) (c : lru) : option lru :=
  let i := fresh c in
  match displace h (alloc h b c) with
  | None => None
  | Some c =>
      let c := set_items (map_set h i (items c)) c in
      resize (link_front i c)
  end.

(** lru-cache.go:183-189 find *)
Definition find (h : N) (k : K) (c : lru) : option ptr_t :=
  match map_get h (items c) with
  | None => None
  | Some i => if matches (blob c i) k then Some i else None
  end.

(** lru-cache.go:192-205 touch *)
Definition touch (h : N) (k : K) (c : lru) : lru * option ptr_t :=
  match find h k c with
  | None => (c, None)
  | Some i =>
      let c := set_next (prev c i) (next c i) c in
      let c := set_prev (next c i) (prev c i) c in
      (link_front i c, Some i)
  end.

(** lru-cache.go:144-153 addKey *)
Definition addKey (k : K) (b : B) (c : lru) : option lru :=
  let h := hash k in
  let '(c, i) := touch h k c in
  match i with
  | Some i => Some (set_blob i b c)
  | None => insert h b c
  end.

(** lru-cache.go:207-214 delete, for the key of the query *)
Definition delete (k : K) (c : lru) : option lru :=
  match find (hash k) k c with None => Some c | Some i => unlink i c end.

(** lru-cache.go:216-219 get; the result is the blob of the returned item *)
Definition get (k : K) (c : lru) : lru * option B :=
  let '(c, i) := touch (hash k) k c in (c, option_map (blob c) i).

(** lru-cache.go:245-254 deleteFunc *)
Fixpoint deleteFunc_loop (fuel : nat) (f : B -> bool) (i : ptr_t) (c : lru) : option lru :=
  if Nat.eqb i (tail c) then Some c
  else match fuel with
       | O => None
       | S fuel' =>
           let nx := next c i in
           match (if f (blob c i) then unlink i c else Some c) with
           | None => None
           | Some c => deleteFunc_loop fuel' f nx c
           end
       end.
Definition deleteFunc (f : B -> bool) (c : lru) : option lru :=
  deleteFunc_loop (length (items c)) f (next c (head c)) c.

(** lru-cache.go:256-258 size *)
Definition size (c : lru) : nat := length (items c).

(** lru-cache.go:260-268 serialize: the blobs in the order in which they are written,
    following prev from the tail. *)
Fixpoint serialize_loop (fuel : nat) (i : ptr_t) (c : lru) : option (list B) :=
  if Nat.eqb i (head c) then Some []
  else match fuel with
       | O => None
       | S fuel' => option_map (cons (blob c i)) (serialize_loop fuel' (prev c i) c)
       end.
Definition serialize (c : lru) : option (list B) :=
  serialize_loop (length (items c)) (prev c (tail c)) c.

(** Operations of the store and their observable result: what a Get returned and the
    size afterwards. *)
Inductive op := Add (k : K) (b : B) | Get (k : K) | Del (k : K) | DelFunc (f : B -> bool) | Reset.

Definition step (c : lru) (o : op) : option (lru * option B) :=
  match o with
  | Add k b => option_map (fun c => (c, None)) (addKey k b c)
  | Get k => Some (get k c)
  | Del k => option_map (fun c => (c, None)) (delete k c)
  | DelFunc f => option_map (fun c => (c, None)) (deleteFunc f c)
  | Reset => Some (reset c, None)
  end.

Fixpoint run (c : lru) (l : list op) : option (lru * list (option B * nat)) :=
  match l with
  | [] => Some (c, [])
  | o :: l' =>
      match step c o with
      | None => None
      | Some (c', out) =>
          match run c' l' with
          | None => None
          | Some (c'', outs) => Some (c'', (out, size c') :: outs)
          end
      end
  end.

(** lru-cache.go:270-285 deserialize, on decoded records already turned into key and blob *)
Fixpoint load (c : lru) (l : list (K * B)) : option lru :=
  match l with
  | [] => Some c
  | (k, b) :: l' => match addKey k b c with None => None | Some c' => load c' l' end
  end.
End Lru.
