(** The pool of buffers of the cache (cache.go:80-100), used by both back ends (cache-blob.go:75-88 newCacheBlob, cache-redis.go:52-87
    encodeCacheAnswer and 132-176 Store) in any number of goroutines side by side; one Redis back end. Memory is arrays that are written and read byte by
    byte; a pointer of the pool refers to an array, and the buffer is that array up to its capacity.
    Library: sync.Pool gives any pointer that was put back, or a new one. PackBuffer (miekg/dns) packs into the buffer if the length
    of the message without compression, and one more byte, fit, and otherwise into a new array of that size.
    The Redis client does not use the value after Set returns. Bytes of a message whose packing fails stay in the buffer. *)
From Verif Require Import Base.
Local Open Scope nat_scope.
Notation byte := N.

Inductive kind := Memory | Sync | Async.
(** A call: the back end, the 10 bytes of the Redis header, the bytes that packing gives, the room it needs, and whether it fails after
    these bytes *)
Record call := Call { knd : kind; header : list byte; wire : list byte; need : nat; fails : bool }.
Inductive pc :=
| Start
| Pack (p b a k : nat)     (* PackBuffer, given array b, to array a, the same or a new one; k bytes are written *)
| Move (p a r k : nat)     (* cache-redis.go:71-72: to the new array r *)
| Head (p r k : nat)       (* cache-redis.go:75-84 *)
| Adopt (p r : nat)
| Choose (p r : nat)       (* cache-redis.go:162-175 *)
| Read (p r : nat) (out : list byte)  (* the client sends the value; newCacheBlobFromWire copies the message *)
| Put (p : nat) (sem : bool) (out : option (list byte))
| Release (out : option (list byte))
| Done (out : option (list byte))     (* what was stored, if anything *)
| Panic.
Record st := St { heap : list (list byte); ptrs : list nat; pool : list nat; sem : nat; calls : list (call * pc) }.
Definition init : st := St [] [] [] 0 [].
Fixpoint put {A} (i : nat) (x : A) (l : list A) : list A :=
  match i, l with O, _ :: l' => x :: l' | S i', y :: l' => y :: put i' x l' | _, [] => [] end.
Fixpoint remove_nth {A} (i : nat) (l : list A) : list A := match i, l with _, [] => [] | O, _ :: l' => l' | S i, x :: l' => x :: remove_nth i l' end.
Definition offset (c : call) : nat := match knd c with Memory => 0 | _ => 10 end.
Definition size (s : st) (a : nat) : nat := length (nth a (heap s) []).
Definition target (s : st) (p : nat) : nat := nth p (ptrs s) 0.
Definition zeros (n : nat) : list byte := repeat 0%N n.
Definition at_pc (i : nat) (c : call) (x : pc) (s : st) : st := St (heap s) (ptrs s) (pool s) (sem s) (put i (c, x) (calls s)).
Definition alloc (n : nat) (s : st) : st := St (heap s ++ [zeros n]) (ptrs s) (pool s) (sem s) (calls s).
Definition write (a k : nat) (b : byte) (s : st) : st := St (put a (put k b (nth a (heap s) [])) (heap s)) (ptrs s) (pool s) (sem s) (calls s).
Definition aim (p r : nat) (s : st) : st := St (heap s) (put p r (ptrs s)) (pool s) (sem s) (calls s).
Definition with_pool (l : list nat) (s : st) : st := St (heap s) (ptrs s) l (sem s) (calls s).
Definition with_sem (n : nat) (s : st) : st := St (heap s) (ptrs s) (pool s) n (calls s).
(** The value that the client reads: header and message, or the message *)
Definition total (c : call) : nat := offset c + length (wire c).

(** With the pointer p: cache-blob.go:82, cache-redis.go:53-60. PackBuffer writes in place or to a new array *)
Definition pack_to (i : nat) (c : call) (p b : nat) (s : st) : st :=
  if offset c + need c <=? size s b then at_pc i c (Pack p b b 0) s else at_pc i c (Pack p b (length (heap s)) 0) (alloc (need c) s).
Definition begin_pack (i : nat) (c : call) (p : nat) (s : st) : st :=
  match knd c with
  | Memory => pack_to i c p (target s p) s
  | _ => if size s (target s p) <? 10 then pack_to i c p (length (heap s)) (alloc 2058 s) else pack_to i c p (target s p) s
  end.
Section CAP.
Variable capacity : nat.   (* cache-redis.go:19 redisAsyncWriteSemCapacity, of the one Redis back end *)
(** Drop: sync.Pool forgets a pointer *)
Inductive label := New (c : call) | Get (i : nat) (n : option nat) | Go (i : nat) | Drop (n : nat).
Definition go (i : nat) (c : call) (x : pc) (s : st) : option st :=
  match x with
  | Start => None
  | Pack p b a k =>
      Some (match nth_error (wire c) k with
            | Some x => at_pc i c (Pack p b a (S k)) (write a ((if a =? b then offset c else 0) + k) x s)
            | None =>
                if fails c then at_pc i c (Put p false None) s
                else match knd c with
                     | Memory => at_pc i c (Adopt p a) s
                     (* cache-redis.go:65: &dnsWire[0] and &buf[headerSize] *)
                     | _ => if (length (wire c) =? 0) || (size s b <=? 10) then at_pc i c Panic s
                            else if a =? b then at_pc i c (Head p b 0) s else at_pc i c (Move p a (length (heap s)) 0) (alloc (10 + length (wire c)) s)
                     end
            end)
  | Move p a r k =>
      Some (if k <? length (wire c) then at_pc i c (Move p a r (S k)) (write r (10 + k) (nth k (nth a (heap s) []) 0%N) s) else at_pc i c (Head p r 0) s)
  | Head p r k =>
      Some (match nth_error (header c) k with
            | Some b => at_pc i c (Head p r (S k)) (write r k b s)
            | None => at_pc i c (Adopt p r) s
            end)
  (* cache.go:96-100 adoptPackBuf *)
  | Adopt p r =>
      let s' := if size s (target s p) <? size s r then aim p r s else s in
      Some (at_pc i c (match knd c with Async => Choose p r | _ => Read p r [] end) s')
  | Choose p r => Some (if sem s <? capacity then at_pc i c (Read p r []) (with_sem (S (sem s)) s) else at_pc i c (Put p false None) s)
  | Read p r out =>
      Some (if length out <? total c then at_pc i c (Read p r (out ++ [nth (length out) (nth r (heap s) []) 0%N])) s
            else at_pc i c (Put p (match knd c with Async => true | _ => false end) (Some out)) s)
  (* cache.go:89-92 putPackBuf *)
  | Put p b out => Some (at_pc i c (if b then Release out else Done out) (with_pool (p :: pool s) s))
  | Release out => Some (at_pc i c (Done out) (with_sem (sem s - 1) s))
  | Done _ | Panic => None
  end.
Definition step (l : label) (s : st) : option st :=
  match l with
  | New c => Some (St (heap s) (ptrs s) (pool s) (sem s) (calls s ++ [(c, Start)]))
  | Get i n =>
      match nth_error (calls s) i with
      | Some (c, Start) =>
          match n with
          | Some n => match nth_error (pool s) n with Some p => Some (begin_pack i c p (with_pool (remove_nth n (pool s)) s)) | None => None end
          | None => Some (begin_pack i c (length (ptrs s)) (St (heap s ++ [zeros 2048]) (ptrs s ++ [length (heap s)]) (pool s) (sem s) (calls s)))
          end
      | _ => None
      end
  | Go i => match nth_error (calls s) i with Some (c, x) => go i c x s | None => None end
  | Drop n => if n <? length (pool s) then Some (with_pool (remove_nth n (pool s)) s) else None
  end.
Fixpoint run (ls : list label) (s : st) : option st :=
  match ls with [] => Some s | a :: ls' => match step a s with Some s' => run ls' s' | None => None end end.
End CAP.
