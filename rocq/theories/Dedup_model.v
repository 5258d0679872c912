(** request-dedup.go: identical concurrent queries share one upstream query. Threads (calls of Resolve) are
    interleaved at the mutex and at the channel. *)
From Verif Require Import Base Bytes Net Dns.
Open Scope N_scope.

(** request-dedup.go:11-21 dedupKey *)
Record dkey := DKey { k_name : string; k_type : N; k_class : N; k_do : bool; k_cd : bool;
                      k_v4 : N; k_hi : N; k_lo : N; k_mask : N }.
Definition dkey_eq (a b : dkey) : {a = b} + {a <> b}.
Proof. decide equality; solve [apply N.eq_dec | apply Bool.bool_dec | apply String.string_dec]. Defined.

(** binary.BigEndian.Uint32/Uint64 *)
Definition big_endian (b : bytes) : N := fold_left (fun v x => v * 256 + x) b 0.
(** request-dedup.go:145-152 byteToUint128 *)
Definition byteToUint128 (b : bytes) : N * N :=
  if Nat.eqb (length b) 16 then (big_endian (firstn 8 b), big_endian (skipn 8 b)) else (0, 0).
(** request-dedup.go:154-159 byteToUint32 *)
Definition byteToUint32 (b : bytes) : N := if Nat.eqb (length b) 4 then big_endian b else 0.
Definition nil_of (x : option bytes) : bytes := match x with Some b => b | None => [] end.

(** request-dedup.go:58-75 the loop over the options; it ends at the first client-subnet option *)
Fixpoint dedup_ecs (l : list edns0) : N * (N * N) * N :=
  match l with
  | [] => (0, (0, 0), 0)
  | ECS family mask _ address :: _ =>
      if family =? 1 then (byteToUint32 (nil_of (to4 address)), (0, 0), mask)
      else if family =? 2 then (0, byteToUint128 (nil_of (to16 address)), mask)
      else (0, (0, 0), 0)
  | _ :: l' => dedup_ecs l'
  end.

(** request-dedup.go:50-87 the key; [None]: q.Question[0] panics *)
Definition dedup_key (q : msg) : option dkey :=
  match m_question q with
  | [] => None
  | x :: _ =>
      let '(dobit, (v4, (hi, lo), mask)) :=
        match is_edns0 q with
        | Some o => (opt_do o, dedup_ecs (opt_options o))
        | None => (false, (0, (0, 0), 0))
        end in
      Some (DKey (lower (q_name x)) (q_type x) (q_class x) dobit (m_cd q) v4 hi lo mask)
  end.

(** request-dedup.go:105-110, 126-131 the caller's own copy. Messages are values here, so that copies are
    independent by construction. *)
Definition own_copy (q : msg) (r : result) : result :=
  match r with Ans a => Ans (set_question (m_question q) (set_id (m_id q) a)) | _ => r end.

(** A call of Resolve: not begun, waiting for upstream (line 116), done closed (line 119), waiting for the
    call that asked (line 101), returned. *)
Inductive dthread :=
| DIdle
| DLead (q : msg)
| DClosed (q : msg) (r : result)
| DWait (q : msg) (leader : nat)
| DReturned (q : msg) (r : result).

(** The map of requests in flight, each named by the thread that created it; the answer of each request
    once done is closed; the threads. *)
Record dstate := DState { d_inflight : dkey -> option nat; d_answer : nat -> option result; d_thread : nat -> dthread }.
Definition dedup_init : dstate := DState (fun _ => None) (fun _ => None) (fun _ => DIdle).

Inductive devent :=
| DEnter (t : nat) (q : msg)      (* lines 50-95: the key and the section under the mutex *)
| DReply (t : nat) (r : result)   (* lines 116-119: upstream answers, the answer is stored, done is closed *)
| DRemove (t : nat)               (* lines 122-132: the entry is deleted, Resolve returns *)
| DWake (t : nat).                (* lines 101-111: done is closed, Resolve returns *)

(** What the outside sees: upstream is asked, a call returns *)
Inductive dout := ONone | OAsk (q : msg) | OReturn (r : result).

Definition set_at {A} (n : nat) (v : A) (f : nat -> A) : nat -> A := fun m => if Nat.eqb m n then v else f m.
Definition set_key {A} (k : dkey) (v : A) (f : dkey -> A) : dkey -> A := fun m => if dkey_eq m k then v else f m.

(** [None]: the event is not possible in this state (or the key cannot be built) *)
Definition dedup_step (s : dstate) (e : devent) : option (dstate * dout) :=
  match e with
  | DEnter t q =>
      match d_thread s t, dedup_key q with
      | DIdle, Some k =>
          match d_inflight s k with
          | Some l => Some (DState (d_inflight s) (d_answer s) (set_at t (DWait q l) (d_thread s)), ONone)
          | None => Some (DState (set_key k (Some t) (d_inflight s)) (d_answer s) (set_at t (DLead q) (d_thread s)), OAsk q)
          end
      | _, _ => None
      end
  | DReply t r =>
      match d_thread s t with
      | DLead q => Some (DState (d_inflight s) (set_at t (Some r) (d_answer s)) (set_at t (DClosed q r) (d_thread s)), ONone)
      | _ => None
      end
  | DRemove t =>
      match d_thread s t with
      | DClosed q r =>
          match dedup_key q with
          | Some k => Some (DState (set_key k None (d_inflight s)) (d_answer s) (set_at t (DReturned q (own_copy q r)) (d_thread s)), OReturn (own_copy q r))
          | None => None
          end
      | _ => None
      end
  | DWake t =>
      match d_thread s t with
      | DWait q l =>
          match d_answer s l with
          | Some r => Some (DState (d_inflight s) (d_answer s) (set_at t (DReturned q (own_copy q r)) (d_thread s)), OReturn (own_copy q r))
          | None => None
          end
      | _ => None
      end
  end.

(** Executions: the events with what the outside sees of each *)
Fixpoint dedup_exec (s : dstate) (l : list devent) : option (dstate * list (devent * dout)) :=
  match l with
  | [] => Some (s, [])
  | e :: l' => match dedup_step s e with
               | Some (s', o) => match dedup_exec s' l' with Some (s'', tr) => Some (s'', (e, o) :: tr) | None => None end
               | None => None
               end
  end.
