(** Model of cache.go (Cache resolver, aging, lifetimes, shuffles) and cache-memory.go
    (the in-memory backend). *)
From Verif Require Import Base Bytes Dns Blob_model Lru_model.
Open Scope N_scope.

Definition MaxUint32 : N := 4294967295.
Definition second : Z := 1000000000%Z.

(** cache.go:108-113 cacheAge. Differences of times are computed without int64 wrap. *)
Definition cacheAge (now stored : Z) : N :=
  if (now <=? stored)%Z then 0 else Z.to_N (Z.quot (now - stored) second mod 2^32).

(** The inner loop of ageCachedAnswer, cache.go:129-140, over one section; [None] is the
    early return of false. *)
Fixpoint age_rrs (age : N) (l : list rr) : option (list rr) :=
  match l with
  | [] => Some []
  | a :: l' =>
      if is_opt a then option_map (cons a) (age_rrs age l')
      else if rr_ttl a <=? age then None
      else option_map (cons (set_ttl (rr_ttl a - age) a)) (age_rrs age l')
  end.

(** cache.go:123-142 ageCachedAnswer *)
Definition ageCachedAnswer (answer q : msg) (age : N) : option msg :=
  let answer := set_id (m_id q) answer in
  let answer := set_question (m_question q) answer in
  match age_rrs age (m_answer answer) with
  | None => None
  | Some an =>
      match age_rrs age (m_ns answer) with
      | None => None
      | Some ns =>
          match age_rrs age (m_extra answer) with
          | None => None
          | Some ex => Some (set_extra ex (set_ns ns (set_answer an answer)))
          end
      end
  end.

(** cache.go:363-381 minTTL: (min, found), over the concatenated sections *)
Fixpoint min_loop (l : list rr) (min : N) (found : bool) : N * bool :=
  match l with
  | [] => (min, found)
  | a :: l' =>
      if is_opt a then min_loop l' min found
      else if rr_ttl a <? min then min_loop l' (rr_ttl a) true
      else min_loop l' min found
  end.
Definition minTTL (a : msg) : N * bool :=
  min_loop (m_answer a ++ m_ns a ++ m_extra a) MaxUint32 false.

(** cache.go:36-78 CacheOptions, the fields used here. [o_rcodemax] is CacheRcodeMaxTTL;
    [o_negttl] is NegativeTTL after NewCache applied its default (cache.go:179-181).
    ShuffleAnswerFunc is an argument of answerFromCache. *)
Record options := Options {
  o_negttl : N; o_rcodemax : N -> option N; o_harden : bool; o_flush : string;
  o_trigger : N; o_eligible : N }.

(** cache.go:179-181, the default of NegativeTTL *)
Definition default_negttl (n : N) : N := if n =? 0 then 60 else n.

Definition add_seconds (t : Z) (n : N) : Z := (t + Z.of_N n * second)%Z.

(** cache.go:321-360 storeInCache up to the call of the backend: the metadata of the item,
    or [None] if it is not stored. *)
Definition storeInCache (o : options) (now : Z) (answer : msg) : option meta :=
  let '(min, ok) := minTTL answer in
  let rc := m_rcode answer in
  let item :=
    if (rc =? RcodeSuccess) || (rc =? RcodeNameError) || (rc =? RcodeRefused)
       || (rc =? RcodeNotImplemented) || (rc =? RcodeFormatError) then
      if ok then Some (add_seconds now min, o_eligible o <? min)
      else Some (add_seconds now (o_negttl o), false)
    else if rc =? RcodeServerFailure then
      if o_negttl o <? 300 then Some (add_seconds now (o_negttl o), false)
      else Some (add_seconds now 300, false)
    else None in
  match item with
  | None => None
  | Some (expiry, prefetch) =>
      let expiry := match o_rcodemax o rc with
                    | None => expiry
                    | Some lim => let limit := add_seconds now lim in
                                  if (limit <? expiry)%Z then limit else expiry
                    end in
      Some (Meta (Some now) (Some expiry) prefetch)
  end.

Section Backend.
Variable ipString : bytes -> string.
(** dns.Msg.Pack / Unpack *)
Variable pack : msg -> option bytes.
Variable unpack : bytes -> option msg.
Variable hash : lruKey -> N.

Notation lru := (lru bytes).
Definition cache_new (cap : Z) : lru := newLRUCache bytes [] cap.

(** cache-blob.go:75-88 newCacheBlob *)
Definition newCacheBlob (k : lruKey) (m : meta) (a : msg) : option bytes :=
  match pack a with None => None | Some w => newCacheBlobFromWire k m w end.

(** cache-memory.go:59-71 Store. Outer [None]: panic (no question, or in the LRU). *)
Definition mem_store (q : msg) (m : meta) (a : msg) (c : lru) : option lru :=
  match lruKeyFromQuery ipString q with
  | None => None
  | Some k =>
      match newCacheBlob k m a with
      | None => Some c
      | Some b => addKey lruKey bytes matchesKey hash k b c
      end
  end.

(** cache-memory.go:83-110: what Lookup makes of the blob it took out of the list, after
    the lock is released; [None] is a miss that also evicts. *)
Definition mem_finish (q : msg) (now : Z) (b : bytes) : option (msg * bool) :=
  if (b_expiry b <? now)%Z then None
  else match unpack (b_message b) with
       | None => None
       | Some answer =>
           match ageCachedAnswer answer q (cacheAge now (b_timestamp b)) with
           | None => None
           | Some a => Some (a, b_prefetch b)
           end
       end.

(** cache-memory.go:113-119 Evict for one query *)
Definition mem_evict (q : msg) (c : lru) : option lru :=
  match lruKeyFromQuery ipString q with
  | None => None
  | Some k => delete lruKey bytes matchesKey hash k c
  end.

(** cache-memory.go:73-111 Lookup, run without interruption *)
Definition mem_lookup (q : msg) (now : Z) (c : lru) : option (lru * option (msg * bool)) :=
  match lruKeyFromQuery ipString q with
  | None => None
  | Some k =>
      let '(c, r) := get lruKey bytes matchesKey hash k c in
      match r with
      | None => Some (c, None)
      | Some b =>
          match mem_finish q now b with
          | Some a => Some (c, Some a)
          | None => option_map (fun c => (c, None)) (mem_evict q c)
          end
      end
  end.

(** cache-memory.go:132-146 one round of startGC *)
Definition mem_gc (now : Z) (c : lru) : option lru :=
  deleteFunc bytes (fun b => (b_expiry b <? now)%Z) c.

(** cache.go:303-316: the ancestors that are tried, nearest first *)
Fixpoint joins_from (l : list string) : list string :=
  match l with [] => [] | x :: l' => join dot l :: joins_from l' end.
(** fragments[i:] joined, for i = 1 .. len(fragments)-2 *)
Definition ancestors (name : string) : list string :=
  let fs := split dot name in
  firstn (length fs - 2) (joins_from (List.tl fs)).

(** newQ.Question[0].Name = n *)
Definition with_name (q : msg) (n : string) : msg :=
  match m_question q with
  | [] => q
  | x :: l => set_question (Q n (q_type x) (q_class x) :: l) q
  end.

(** The loop of cache.go:307-315 *)
Fixpoint harden_loop (q : msg) (now : Z) (names : list string) (c : lru) : option (lru * option (msg * bool)) :=
  match names with
  | [] => Some (c, None)
  | n :: names' =>
      match mem_lookup (with_name q n) now c with
      | None => None
      | Some (c, Some (a, _)) =>
          if m_rcode a =? RcodeNameError then Some (c, Some (nxdomain q, false)) else Some (c, None)
      | Some (c, None) => harden_loop q now names' c
      end
  end.

(** cache.go:292-319 answerFromCache. [shuffle] is what ShuffleAnswerFunc does to the message
    in this call (the identity if it is nil). *)
Definition answerFromCache (o : options) (shuffle : msg -> msg) (q : msg) (now : Z) (c : lru) : option (lru * option (msg * bool)) :=
  match mem_lookup q now c with
  | None => None
  | Some (c, Some (a, pf)) => Some (c, Some (shuffle a, pf))
  | Some (c, None) =>
      if o_harden o then
        match m_question q with
        | [] => None
        | x :: _ => harden_loop q now (ancestors (q_name x)) c
        end
      else Some (c, None)
  end.

(** How an answer that did not come from upstream was made: the flush reply, from the cache,
    from the cache and starting a prefetch. *)
Inductive effect := Flushed | FromCache | Prefetched (min : N).

(** cache.go:214-262, the part of Resolve before upstream is asked; the inner [None] means that
    the query goes upstream. The goroutine of a prefetch is [prefetch_done] below. *)
Definition resolve_lookup (o : options) (shuffle : msg -> msg) (q : msg) (now : Z) (c : lru) : option (lru * option (msg * effect)) :=
  if negb (String.eqb (o_flush o) "") && (match m_question q with x :: _ => String.eqb (o_flush o) (q_name x) | [] => false end)
  then Some (reset bytes c, Some (set_reply empty_msg q, Flushed))
  else
    match answerFromCache o shuffle q now c with
    | None => None
    | Some (c, None) => Some (c, None)
    | Some (c, Some (a, pf)) =>
        if pf && (0 <? o_trigger o) then
          let '(min, ok) := minTTL a in
          if ok && (min <? o_trigger o) then Some (c, Some (a, Prefetched min)) else Some (c, Some (a, FromCache))
        else Some (c, Some (a, FromCache))
    end.

(** cache.go:267-284, the part of Resolve after upstream gave [up], at time [now] *)
Definition resolve_finish (o : options) (q : msg) (now : Z) (up : result) (c : lru) : option (lru * result) :=
  match up with
  | Err e => Some (c, Err e)
  | Drop => Some (c, Drop)
  | Ans a =>
      if m_tc a then Some (c, Ans a)
      else match storeInCache o now a with
           | None => Some (c, Ans a)
           | Some m => option_map (fun c => (c, Ans a)) (mem_store q m a c)
           end
  end.

(** cache.go:204-285 Resolve run without interruption: [now] when the cache is asked, [later]
    when upstream has answered [up]. *)
Definition resolve (o : options) (shuffle : msg -> msg) (q : msg) (now later : Z) (up : result) (c : lru) : option (lru * result) :=
  if Nat.ltb 1 (length (m_question q)) then Some (c, up)
  else match resolve_lookup o shuffle q now c with
       | None => None
       | Some (c, Some (a, _)) => Some (c, Ans a)
       | Some (c, None) => resolve_finish o q later up c
       end.

(** cache.go:240-258, the rest of the prefetch goroutine once upstream answered *)
Definition prefetch_done (o : options) (q : msg) (min : N) (now : Z) (up : result) (c : lru) : option lru :=
  match up with
  | Ans a =>
      if m_tc a then Some c
      else let '(amin, ok) := minTTL a in
           if negb ok || (amin <? min) then Some c
           else match storeInCache o now a with
                | None => Some c
                | Some m => mem_store q m a c
                end
  | _ => Some c
  end.

(** A history of the cache. Concurrent calls of Resolve interleave, so the two halves of a call
    are separate events; prefetches complete on their own; the garbage collector runs; the
    eviction at the end of a Lookup may come late. *)
Inductive event :=
| ELookup (q : msg) (now : Z) (shuffle : msg -> msg)
| EStore (q : msg) (now : Z) (up : result)
| EPrefetch (q : msg) (min : N) (now : Z) (up : result)
| EGC (now : Z)
| EEvict (q : msg).

Definition exec (o : options) (c : lru) (e : event) : option lru :=
  match e with
  | ELookup q now f => option_map fst (resolve_lookup o f q now c)
  | EStore q now up => option_map fst (resolve_finish o q now up c)
  | EPrefetch q min now up => prefetch_done o q min now up c
  | EGC now => mem_gc now c
  | EEvict q => mem_evict q c
  end.

Fixpoint exec_all (o : options) (c : lru) (l : list event) : option lru :=
  match l with
  | [] => Some c
  | e :: l' => match exec o c e with None => None | Some c' => exec_all o c' l' end
  end.

(** lru-cache.go:260-268 serialize, as the list of records written *)
Definition saveFile (c : lru) : option (list itemJSON) :=
  option_map (map newCacheItemJSON) (serialize bytes c).

(** lru-cache.go:270-285 deserialize, on the decoded records *)
Fixpoint loadFile (l : list itemJSON) (c : lru) : option lru :=
  match l with
  | [] => Some c
  | r :: l' =>
      match toCacheBlob (fun w => match unpack w with Some _ => true | None => false end) r with
      | None => loadFile l' c
      | Some b => match addKey lruKey bytes matchesKey hash (j_key r) b c with
                  | None => None
                  | Some c' => loadFile l' c'
                  end
      end
  end.
End Backend.

(** ** Shuffles *)
Definition is_addr (r : rr) : bool := (rr_type r =? TypeA) || (rr_type r =? TypeAAAA).

(** Positions of the address records: the idx slice of cache.go:392-398 *)
Fixpoint addr_idx (i : nat) (l : list rr) : list nat :=
  match l with [] => [] | r :: l' => if is_addr r then i :: addr_idx (S i) l' else addr_idx (S i) l' end.

Definition swap {A} (d : A) (i j : nat) (l : list A) : list A :=
  let set n v l := firstn n l ++ v :: skipn (S n) l in
  set j (nth i l d) (set i (nth j l d) l).

Definition dummy_rr : rr := RR "" 0 0 0 (DOTHER []).

(** cache.go:388-402 AnswerShuffleRandom. rand.Shuffle calls swap(i, j) with indexes below n,
    for a sequence of pairs that is arbitrary here ([choices]). *)
Definition AnswerShuffleRandom (choices : list (nat * nat)) (m : msg) : msg :=
  if Nat.ltb (length (m_answer m)) 2 then m
  else
    let idx := addr_idx 0 (m_answer m) in
    set_answer (fold_left (fun l p =>
       if Nat.ltb (fst p) (length idx) && Nat.ltb (snd p) (length idx)
       then swap dummy_rr (nth (fst p) idx 0%nat) (nth (snd p) idx 0%nat) l else l) choices (m_answer m)) m.

(** Put the values [vs] at the positions of the address records (writing through the
    aRecords pointers). *)
Fixpoint put_addrs (vs : list rr) (l : list rr) : list rr :=
  match l with
  | [] => []
  | r :: l' => if is_addr r then match vs with
                                 | v :: vs' => v :: put_addrs vs' l'
                                 | [] => r :: put_addrs [] l'
                                 end
               else r :: put_addrs vs l'
  end.

(** One pass of the outer loop of cache.go:487-493: the last goes first. *)
Definition rotate_once (vs : list rr) : list rr :=
  match vs with [] => [] | v :: vs' => last vs v :: removelast vs end.
Fixpoint iter {A} (n : nat) (f : A -> A) (x : A) : A := match n with O => x | S n' => f (iter n' f x) end.

(** cache.go:418-494 AnswerShuffleRoundRobin. [reads] is the state of the record for the key:
    [None] if there is none. Returns the new state and message. *)
Definition AnswerShuffleRoundRobin (reads : option N) (m : msg) : option N * msg :=
  if Nat.ltb (length (m_answer m)) 2 then (reads, m)
  else
    match (match reads with
           | Some n => Some ((n + 1) mod 2^64)
           | None => if snd (minTTL m) then Some 0 else None
           end) with
    | None => (reads, m)
    | Some shiftBy =>
        let aRecords := filter is_addr (m_answer m) in
        if Nat.ltb (length aRecords) 2 then (Some shiftBy, m)
        else
          let n := N.to_nat (shiftBy mod N.of_nat (length aRecords)) in
          (Some shiftBy, set_answer (put_addrs (iter (S n) rotate_once aRecords) (m_answer m)) m)
    end.
