(** prefetch.go. The two caches are instances of github.com/0xERR0R/expiration-cache, a library outside /repo: Put stores under a key for a
    time, Get returns what is stored and not removed yet (even if its time is over), entries are removed when there are too many and, some
    time after they expired, by a cleaning goroutine; before that one removes an entry it calls back. Here an entry may be removed and a
    callback may come at any moment. *)
From Verif Require Import Base Bytes Dns Blob_model Cache_model Redis_model.
Local Open Scope N_scope.

(** fmt.Sprintf("%+v", key) of prefetch.go:136 for the struct of lru-cache.go:36-42 *)
Definition boolText (b : bool) : string := if b then "true" else "false".
Definition keyText (k : lruKey) : string :=
  ("{Question:{Name:" ++ q_name (k_q k) ++ " Qtype:" ++ itoa (q_type (k_q k)) ++ " Qclass:" ++ itoa (q_class (k_q k)) ++ "} Net:" ++ k_net k ++
   " Do:" ++ boolText (k_do k) ++ " CD:" ++ boolText (k_cd k) ++ " ECSMask:" ++ itoa (k_mask k) ++ "}")%string.
(** None: no question, index out of range *)
Definition prefetchKey (ipString : bytes -> string) (q : msg) : option string := option_map keyText (lruKeyFromQuery ipString q).

(** prefetch.go:42-47, the defaults *)
Definition window_of (w : Z) : Z := if (w =? 0)%Z then (3600 * second)%Z else w.
Definition threshold_of (n : N) : N := if n =? 0 then 5 else n.

(** What the upstream resolver returns *)
Inductive result := Failed | Dropped | Answered (a : msg).
(** prefetch.go:126-133 and 95-102, a TTL if the response can be used *)
Definition usable (r : result) : option N :=
  match r with
  | Answered a => if negb (m_rcode a =? RcodeSuccess) || m_tc a then None
                  else let '(min, ok) := minTTL a in if negb ok || (min <? 2) then None else Some min
  | _ => None
  end.

(** Where a call of Resolve stands after line 136: before Get (140), Add (143), Put (144), Load (147), Put (150) *)
Inductive stage := SGet | SAdd (v : nat) | SPut (v : nat) | SLoad (v : nat) | SCache.
Inductive thread :=
(* Resolve, prefetch.go:120-153: waiting for the upstream resolver; line 140 and after, with the time line 136 was reached; over *)
| Wait (q : msg)
| Run (p : stage) (q : msg) (k : string) (ttl : N) (r : result) (t0 : Z)
| Done
(* the callback, prefetch.go:72-106: line 75, line 81, waiting at line 90 *)
| CLoad (k : string) (v : nat) (t0 : Z)
| CQuery (k : string) (v : nat) (t0 : Z)
| CWait (k : string) (q : msg).

Inductive event :=
| Ask (i : nat) (q : msg)                      (* call i of Resolve *)
| Answer (i : nat) (r : result)                (* the upstream resolver has answered its query *)
| Counted (i : nat) (k : string) (v : nat) (t : Z)
| Returned (i : nat) (r : result)
| Prefetched (k : string) (q : msg) (t : Z).   (* line 90 *)

(** Counters by address (values modulo 2^64), the caches with times of expiry, the calls, the log with the newest event first *)
Record state := State {
  s_now : Z; s_ctrs : list N; s_names : list (string * (nat * Z)); s_queries : list (string * (msg * Z)); s_threads : list thread; s_log : list event }.
Definition start (t : Z) : state := State t [] [] [] [] [].

Fixpoint lookup {A} (k : string) (l : list (string * A)) : option A :=
  match l with [] => None | (k', a) :: l' => if String.eqb k k' then Some a else lookup k l' end.
Definition put {A} (k : string) (a : A) (l : list (string * A)) : list (string * A) := (k, a) :: filter (fun p => negb (String.eqb k (fst p))) l.
Fixpoint set_nth {A} (n : nat) (a : A) (l : list A) : list A :=
  match l, n with [], _ => [] | _ :: l', O => a :: l' | x :: l', S n' => x :: set_nth n' a l' end.

Section PREFETCH.
Variable key : msg -> option string.
Variables (window : Z) (threshold : N).
(** Assumptions about time: an expired counter is removed at most [slack] after its time, and from line 136 on a call takes at most [delay]
    (a callback as well, up to line 90). *)
Variables (slack delay : Z).

(** What may happen next; the upstream resolver may modify the query it gets, [f] says how. *)
Inductive action :=
| AAsk (q : msg) | AAnswer (i : nat) (r : result) (f : msg -> msg) | ARun (i : nat)
| ACallback (k : string) | ACallbackAnswer (i : nat) (r : result) (f : msg -> msg)
| AChange (k : string) (f : msg -> msg)        (* a query in the cache is modified by the resolver it was passed to *)
| ARemove (f g : string -> bool) | ATick (t : Z).

Definition set_thread (i : nat) (t : thread) (s : state) : state := State (s_now s) (s_ctrs s) (s_names s) (s_queries s) (set_nth i t (s_threads s)) (s_log s).
Definition log (e : event) (s : state) : state := State (s_now s) (s_ctrs s) (s_names s) (s_queries s) (s_threads s) (e :: s_log s).
Definition set_names n (s : state) : state := State (s_now s) (s_ctrs s) n (s_queries s) (s_threads s) (s_log s).
Definition set_ctrs c (s : state) : state := State (s_now s) c (s_names s) (s_queries s) (s_threads s) (s_log s).
Definition set_queries c (s : state) : state := State (s_now s) (s_ctrs s) (s_names s) c (s_threads s) (s_log s).
Definition add_thread (t : thread) (s : state) : state := State (s_now s) (s_ctrs s) (s_names s) (s_queries s) (s_threads s ++ [t]) (s_log s).

Definition in_time (t : Z) (s : state) : bool :=
  forallb (fun p => t <=? snd (snd p) + slack)%Z (s_names s) &&
  forallb (fun th => match th with Run _ _ _ _ _ t0 => t <=? t0 + delay | CLoad _ _ t0 => t <=? t0 + delay | CQuery _ _ t0 => t <=? t0 + delay | _ => true end)%Z (s_threads s).

(** One step of a call that is past line 136, or of a callback before line 90 *)
Definition run (i : nat) (th : thread) (s : state) : option state :=
  match th with
  (* prefetch.go:140-142 *)
  | Run SGet q k ttl r t0 =>
      match lookup k (s_names s) with
      | Some (v, _) => Some (set_thread i (Run (SAdd v) q k ttl r t0) s)
      | None => Some (set_thread i (Run (SAdd (length (s_ctrs s))) q k ttl r t0) (set_ctrs (s_ctrs s ++ [0]) s))
      end
  (* 143 *)
  | Run (SAdd v) q k ttl r t0 => Some (log (Counted i k v (s_now s)) (set_thread i (Run (SPut v) q k ttl r t0) (set_ctrs (set_nth v ((nth v (s_ctrs s) 0 + 1) mod 2 ^ 64) (s_ctrs s)) s)))
  (* 144 *)
  | Run (SPut v) q k ttl r t0 => Some (set_thread i (Run (SLoad v) q k ttl r t0) (set_names (put k (v, s_now s + window)%Z (s_names s)) s))
  (* 147 *)
  | Run (SLoad v) q k ttl r t0 => if threshold <=? nth v (s_ctrs s) 0 then Some (set_thread i (Run SCache q k ttl r t0) s) else Some (log (Returned i r) (set_thread i Done s))
  (* 148-152 *)
  | Run SCache q k ttl r t0 => Some (log (Returned i r) (set_thread i Done (set_queries (put k (q, s_now s + Z.of_N ttl * second)%Z (s_queries s)) s)))
  (* 75-78 *)
  | CLoad k v t0 => Some (set_thread i (if nth v (s_ctrs s) 0 <? threshold then Done else CQuery k v t0) s)
  (* 81-90 *)
  | CQuery k v t0 => match lookup k (s_queries s) with
                     | None => Some (set_thread i Done s)
                     | Some (q, _) => Some (log (Prefetched k q (s_now s)) (set_thread i (CWait k q) s))
                     end
  | _ => None
  end.

(** None: the action is not possible, or the program panics *)
Definition act (a : action) (s : state) : option state :=
  match a with
  (* prefetch.go:121 *)
  | AAsk q => Some (log (Ask (length (s_threads s)) q) (add_thread (Wait q) s))
  (* 121-136 *)
  | AAnswer i r f =>
      match nth_error (s_threads s) i with
      | Some (Wait q) =>
          match usable r with
          | None => Some (log (Returned i r) (log (Answer i r) (set_thread i Done s)))
          | Some ttl => match key (f q) with None => None | Some k => Some (log (Answer i r) (set_thread i (Run SGet (f q) k ttl r (s_now s)) s)) end
          end
      | _ => None
      end
  | ARun i => match nth_error (s_threads s) i with Some th => run i th s | None => None end
  (* 72-74 *)
  | ACallback k => match lookup k (s_names s) with None => Some s | Some (v, _) => Some (add_thread (CLoad k v (s_now s)) s) end
  (* 90-105; if nothing is returned the entry is removed, for which there is ARemove *)
  | ACallbackAnswer i r f =>
      match nth_error (s_threads s) i with
      | Some (CWait k q) =>
          let s := set_thread i Done s in
          Some (match usable r with None => s | Some ttl => set_queries (put k (f q, s_now s + Z.of_N ttl * second)%Z (s_queries s)) s end)
      | _ => None
      end
  | AChange k f => Some (set_queries (map (fun p => if String.eqb k (fst p) then (fst p, (f (fst (snd p)), snd (snd p))) else p) (s_queries s)) s)
  | ARemove f g => Some (set_queries (filter (fun p => g (fst p)) (s_queries s)) (set_names (filter (fun p => f (fst p)) (s_names s)) s))
  | ATick t => if (s_now s <=? t)%Z && in_time t s then Some (State t (s_ctrs s) (s_names s) (s_queries s) (s_threads s) (s_log s)) else None
  end.
Fixpoint acts (l : list action) (s : state) : option state := match l with [] => Some s | a :: l' => match act a s with None => None | Some s' => acts l' s' end end.
End PREFETCH.
