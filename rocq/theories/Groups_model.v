(** Model of the resolver groups: roundrobin.go, failrotate.go, failback.go, random.go,
    loadbalance.go, fastest.go. Concurrent calls of Resolve are threads (numbered by nat, one
    call each); the atomic sections of the code are the steps. Resolvers of a group are their
    indexes; what they answer is part of the events. Metrics and logging are left out; the query
    handed to the resolvers is not modelled (its in-place modification by resolvers is not). *)
From Verif Require Import Base Bytes Dns.
From Coq Require Import QArith Qround.
Open Scope nat_scope.

Definition TypeHINFO : N := 13.

(** An EDE option with code 15, 16 or 17 (Blocked, Censored, Filtered) *)
Definition deliberate (o : edns0) : bool :=
  match o with EDE c _ => N.eqb c 15 || N.eqb c 16 || N.eqb c 17 | _ => false end.

(** resolver.go:19-55 isSuccessResponse; [None] is nil *)
Definition isSuccessResponse (a : option msg) (servfailError emptyError : bool) : bool :=
  match a with
  | None => true
  | Some a =>
      if (N.eqb (m_rcode a) RcodeServerFailure && servfailError)
         || N.eqb (m_rcode a) RcodeRefused || N.eqb (m_rcode a) RcodeNotImplemented then false
      else if negb emptyError then true
      else match m_answer a, m_question a with
           | r1 :: rest, x :: _ =>
               if existsb (fun r => N.eqb (rr_type r) (q_type x)) (m_answer a) then true
               else if N.eqb (q_type x) TypeANY then
                 negb (Nat.eqb (length (m_answer a)) 1 && N.eqb (rr_type r1) TypeHINFO)
               else false
           | _, _ => match is_edns0 a with
                     | Some o => existsb deliberate (opt_options o)
                     | None => false
                     end
           end
  end.

(** err == nil && isSuccessResponse(a), e.g. failrotate.go:61 *)
Definition good_reply (servfailError emptyError : bool) (r : result) : bool :=
  match r with
  | Err _ => false
  | Drop => isSuccessResponse None servfailError emptyError
  | Ans a => isSuccessResponse (Some a) servfailError emptyError
  end.

Definition setpc {A} (f : nat -> A) (t : nat) (v : A) : nat -> A := fun x => if Nat.eqb x t then v else f x.

(** ** Threads. State of a call: not started; at the head of the loop, attempt [i], with what the
    variables a, err hold; waiting for resolver [idx]; the reply was bad; about to signal the
    timer; returned. *)
Inductive pc :=
| Idle
| Ready (i : nat) (last : result)
| Waiting (i idx : nat)
| Bad (i idx : nat) (r : result)
| Signalling (i : nat) (r : result)
| Returned (r : result).

(** [Sent t idx]: the call is forwarded to resolver idx; [Reply t r]: that resolver returned;
    [Failed t]: the failure is recorded (errorFrom, deactivate). *)
Inductive gevent :=
| Call (t : nat)
| Sent (t idx : nat)
| Reply (t : nat) (r : result)
| Failed (t : nat)
| Signal (t : nat)                  (* failback.go:146, the send to failCh *)
| TimerStart | TimerFire | Consume  (* steps of the timer goroutine of failback.go *)
| Pass (d : Z)                      (* time passes *)
| NoneLeft (t : nat)                (* random.go:54-57 *)
| Reactivate (idx : nat).           (* random.go:110-120 *)

Section Exec.
Context {S : Type} (step : S -> gevent -> option S).
Fixpoint exec (s : S) (l : list gevent) : option S :=
  match l with
  | [] => Some s
  | e :: l' => match step s e with None => None | Some s' => exec s' l' end
  end.
End Exec.

(** State of the groups that only have an index: current or active. *)
Record group := Group { g_active : nat; g_pc : nat -> pc }.
Definition g_init : group := Group 0 (fun _ => Idle).
Definition g_set (s : group) (t : nat) (p : pc) : group := Group (g_active s) (setpc (g_pc s) t p).

(** ** roundrobin.go:31-43 Resolve. Sent is the section under the mutex. *)
Definition rr_step (n : nat) (s : group) (e : gevent) : option group :=
  match e with
  | Sent t idx =>
      match g_pc s t with
      | Idle => if Nat.eqb idx (g_active s)
                then Some (Group ((g_active s + 1) mod n) (setpc (g_pc s) t (Waiting 0 idx)))
                else None
      | _ => None
      end
  | Reply t r =>
      match g_pc s t with
      | Waiting _ _ => Some (g_set s t (Returned r))
      | _ => None
      end
  | _ => None
  end.

Section Fail.
(** len(r.resolvers) and the success test *)
Variable n : nat.
Variable good : result -> bool.

(** The head of the loop `for i := 0; i < len(r.resolvers); i++`. *)
Definition head (i : nat) (last : result) : pc := if Nat.ltb i n then Ready i last else Returned last.

(** ** failrotate.go:50-71 Resolve, 78-82 current, 88-97 errorFrom *)
Definition fr_step (s : group) (e : gevent) : option group :=
  match e with
  | Call t => match g_pc s t with Idle => Some (g_set s t (head 0 Drop)) | _ => None end
  | Sent t idx =>
      match g_pc s t with
      | Ready i _ => if Nat.eqb idx (g_active s) then Some (g_set s t (Waiting i idx)) else None
      | _ => None
      end
  | Reply t r =>
      match g_pc s t with
      | Waiting i idx => Some (g_set s t (if good r then Returned r else Bad i idx r))
      | _ => None
      end
  | Failed t =>
      match g_pc s t with
      | Bad i idx r =>
          Some (Group (if Nat.eqb idx (g_active s) then (g_active s + 1) mod n else g_active s)
                      (setpc (g_pc s) t (head (i + 1) r)))
      | _ => None
      end
  | _ => None
  end.

(** ** failback.go. The timer goroutine: not started, started but its timer not yet created,
    waiting with the timer running to a deadline, waiting for a failure after a reset. *)
Inductive timer := NoTimer | Starting | Armed (deadline : Z) | Waitfail.
Record fb := FB { fb_active : nat; fb_pc : nat -> pc; fb_timer : timer; fb_token : bool; fb_now : Z }.
Variable resetAfter : Z.

Definition fb_init : fb := FB 0 (fun _ => Idle) NoTimer false 0.
Definition fb_set (s : fb) (t : nat) (p : pc) : fb := FB (fb_active s) (setpc (fb_pc s) t p) (fb_timer s) (fb_token s) (fb_now s).

(** failback.go:78-99 Resolve, 106-115 current, 121-145 errorFrom, 149-174 startResetTimer *)
Definition fb_step (s : fb) (e : gevent) : option fb :=
  match e with
  | Call t => match fb_pc s t with Idle => Some (fb_set s t (head 0 Drop)) | _ => None end
  | Sent t idx =>
      match fb_pc s t with
      | Ready i _ =>
          if Nat.eqb idx (if (resetAfter =? 0)%Z then i else fb_active s) then Some (fb_set s t (Waiting i idx)) else None
      | _ => None
      end
  | Reply t r =>
      match fb_pc s t with
      | Waiting i idx => Some (fb_set s t (if good r then Returned r else Bad i idx r))
      | _ => None
      end
  | Failed t =>
      match fb_pc s t with
      | Bad i idx r =>
          if (resetAfter =? 0)%Z || negb (Nat.eqb idx (fb_active s)) then Some (fb_set s t (head (i + 1) r))
          else Some (FB ((fb_active s + 1) mod n) (setpc (fb_pc s) t (Signalling i r))
                        (match fb_timer s with NoTimer => Starting | x => x end) (fb_token s) (fb_now s))
      | _ => None
      end
  | Signal t =>                                    (* blocks while the channel is full *)
      match fb_pc s t, fb_token s with
      | Signalling i r, false => Some (FB (fb_active s) (setpc (fb_pc s) t (head (i + 1) r)) (fb_timer s) true (fb_now s))
      | _, _ => None
      end
  | TimerStart =>
      match fb_timer s with
      | Starting => Some (FB (fb_active s) (fb_pc s) (Armed (fb_now s + resetAfter)) (fb_token s) (fb_now s))
      | _ => None
      end
  | TimerFire =>
      match fb_timer s with
      | Armed d => if (d <=? fb_now s)%Z then Some (FB 0 (fb_pc s) Waitfail (fb_token s) (fb_now s)) else None
      | _ => None
      end
  | Consume =>
      match fb_timer s, fb_token s with
      | Armed _, true | Waitfail, true => Some (FB (fb_active s) (fb_pc s) (Armed (fb_now s + resetAfter)) false (fb_now s))
      | _, _ => None
      end
  | Pass d => if (0 <=? d)%Z then Some (FB (fb_active s) (fb_pc s) (fb_timer s) (fb_token s) (fb_now s + d)) else None
  | _ => None
  end.
End Fail.

(** ** random.go. Resolvers are identified by numbers; [r_sleep] holds those whose reactivation is
    pending. *)
Record rnd := Rnd { r_active : list nat; r_sleep : list nat; r_pc : nat -> pc }.

Definition no_active : result := Err "no active resolvers left".

Fixpoint remove_one (x : nat) (l : list nat) : list nat :=
  match l with [] => [] | y :: l' => if Nat.eqb x y then l' else y :: remove_one x l' end.

Section Random.
Variable good : result -> bool.
Definition rnd_init (resolvers : list nat) : rnd := Rnd resolvers [] (fun _ => Idle).

(** random.go:50-70 Resolve, 77-87 pick (any position), 91-108 deactivate, 110-120
    reactivateLater *)
Definition rnd_step (s : rnd) (e : gevent) : option rnd :=
  match e with
  | Call t => match r_pc s t with Idle => Some (Rnd (r_active s) (r_sleep s) (setpc (r_pc s) t (Ready 0 Drop))) | _ => None end
  | Sent t x =>
      match r_pc s t with
      | Ready i _ => if existsb (Nat.eqb x) (r_active s)
                     then Some (Rnd (r_active s) (r_sleep s) (setpc (r_pc s) t (Waiting i x))) else None
      | _ => None
      end
  | NoneLeft t =>
      match r_pc s t, r_active s with
      | Ready i _, [] => Some (Rnd [] (r_sleep s) (setpc (r_pc s) t (Returned no_active)))
      | _, _ => None
      end
  | Reply t r =>
      match r_pc s t with
      | Waiting i x => Some (Rnd (r_active s) (r_sleep s) (setpc (r_pc s) t (if good r then Returned r else Bad i x r)))
      | _ => None
      end
  | Failed t =>
      match r_pc s t with
      | Bad i x r =>
          Some (Rnd (filter (fun y => negb (Nat.eqb y x)) (r_active s))
                    (r_sleep s ++ filter (fun y => Nat.eqb y x) (r_active s))
                    (setpc (r_pc s) t (Ready (i + 1) r)))
      | _ => None
      end
  | Reactivate x =>
      if existsb (Nat.eqb x) (r_sleep s)
      then Some (Rnd (r_active s ++ [x]) (remove_one x (r_sleep s)) (r_pc s)) else None
  | _ => None
  end.
End Random.

(** ** loadbalance.go. Floating point is replaced by exact rationals. *)
Record lbstats := LBS { ema : Q; cnt : nat; fails : nat; inflated : bool }.
Definition initialRTT : Q := inject_Z 100000.   (* microseconds *)
Definition minWeightRTT : Q := inject_Z 1000.
Definition minSample : Q := 1.
Definition alpha : Q := 1 # 10.
Definition exploration : Q := 5 # 100.
Definition lbs0 : lbstats := LBS 0 0 0 false.

Definition Qltb (a b : Q) : bool := negb (Qle_bool b a).
Definition Qmax' (a b : Q) : Q := if Qltb a b then b else a.

(** loadbalance.go:190-200, the weight of one resolver *)
Definition weight (s : lbstats) : Q :=
  if Nat.ltb 0 (cnt s) && Qltb 0 (ema s) then initialRTT / Qmax' (ema s) minWeightRTT else 1.

(** loadbalance.go:204-211, the loop over the weights *)
Fixpoint pick_loop (i : nat) (selected : Q) (ws : list Q) (dflt : nat) : nat :=
  match ws with
  | [] => dflt
  | w :: ws' => let selected := (selected - w)%Q in
                if Qle_bool selected 0 then i else pick_loop (S i) selected ws' dflt
  end.

(** loadbalance.go:172-212 pick; [r1], [r2] are the values of randFloat() *)
Definition lb_pick (stats : nat -> lbstats) (r1 r2 : Q) (remaining : list nat) : nat :=
  if Qltb r1 exploration then Z.to_nat (Qfloor (r2 * inject_Z (Z.of_nat (length remaining))))
  else
    let ws := map (fun idx => weight (stats idx)) remaining in
    let total := fold_left Qplus ws 0%Q in
    pick_loop 0 (r2 * total)%Q ws (length remaining - 1).

(** remaining[pos] = remaining[len-1]; remaining = remaining[:len-1] *)
Definition swap_remove (pos : nat) (l : list nat) : list nat :=
  let lst := last l 0 in
  removelast (firstn pos l ++ lst :: skipn (S pos) l).

(** loadbalance.go:105-162 Resolve, for one call. [picks k] is the position picked in round k
    (lb_pick with the statistics and random numbers of that moment), [up k idx] what resolver idx
    answers in round k. Returns the resolvers asked, in order, and the result; the outer [None]
    is an index out of range. *)
Fixpoint lb_loop (good : result -> bool) (picks : nat -> list nat -> nat) (up : nat -> nat -> result)
    (fuel k : nat) (remaining : list nat) (last : result) : option (list nat * result) :=
  match remaining, fuel with
  | [], _ => Some ([], match last with Drop => no_active | r => r end)
  | _, O => None
  | _, S fuel' =>
      let pos := picks k remaining in
      match nth_error remaining pos with
      | None => None
      | Some idx =>
          let r := up k idx in
          if good r then Some ([idx], r)
          else match lb_loop good picks up fuel' (S k) (swap_remove pos remaining) r with
               | None => None
               | Some (l, res) => Some (idx :: l, res)
               end
      end
  end.
Definition lb_resolve (good : result -> bool) (picks : nat -> list nat -> nat) (up : nat -> nat -> result) (n : nat) : option (list nat * result) :=
  lb_loop good picks up n 0 (seq 0 n) Drop.

(** loadbalance.go:214-238 updateOnSuccess; [us] is the measured time in microseconds *)
Definition updateOnSuccess (us : Q) (s : lbstats) : lbstats :=
  let us := Qmax' us minSample in
  LBS (if Nat.eqb (cnt s) 0 || inflated s then us else alpha * us + (1 - alpha) * ema s) (S (cnt s)) 0 false.

(** loadbalance.go:246-281 updateOnFailure; [penalty] in microseconds, 0 is disabled *)
Definition updateOnFailure (penalty us : Q) (s : lbstats) : lbstats :=
  let fails := S (fails s) in
  let penalize := Qltb 0 penalty && Nat.leb 2 fails in
  let d := if penalize then penalty else us in
  let us := Qmax' d minSample in
  if Nat.eqb (cnt s) 0 then LBS (Qmax' us initialRTT) (S (cnt s)) fails true
  else
    let newEMA := (alpha * us + (1 - alpha) * ema s)%Q in
    if penalize || Qltb (ema s) newEMA then LBS newEMA (S (cnt s)) fails true
    else LBS (ema s) (S (cnt s)) fails (inflated s).

(** ** fastest.go:27-66 Resolve, one call. The goroutines of the resolvers are numbered; the
    channel has room for all of them. *)
Definition fastest_ok (r : result) : bool :=
  match r with Err _ => false | Drop => true | Ans a => negb (N.eqb (m_rcode a) RcodeServerFailure) end.

(** [f_todo]: goroutines that have not asked their resolver yet; [f_wait]: those waiting for it;
    [f_chan]: responses in the channel; [f_i]: the counter; [f_ret]: what was returned. *)
Record fastest := Fst { f_todo : list nat; f_wait : list nat; f_chan : list result; f_i : nat; f_ret : option result }.
Inductive fevent := Ask (i : nat) | Arrive (i : nat) (r : result) | Take.

Definition fastest_init (n : nat) : fastest := Fst (seq 0 n) [] [] 0 None.
Definition fastest_step (n : nat) (s : fastest) (e : fevent) : option fastest :=
  match e with
  | Ask i => if existsb (Nat.eqb i) (f_todo s)
             then Some (Fst (remove_one i (f_todo s)) (i :: f_wait s) (f_chan s) (f_i s) (f_ret s)) else None
  | Arrive i r => if existsb (Nat.eqb i) (f_wait s)
                  then Some (Fst (f_todo s) (remove_one i (f_wait s)) (f_chan s ++ [r]) (f_i s) (f_ret s)) else None
  | Take =>
      match f_ret s, f_chan s with
      | None, r :: rest =>
          if fastest_ok r then Some (Fst (f_todo s) (f_wait s) rest (f_i s) (Some r))
          else Some (Fst (f_todo s) (f_wait s) rest (f_i s + 1) (if Nat.leb n (f_i s + 1) then Some r else None))
      | _, _ => None
      end
  end.
Fixpoint fastest_exec (n : nat) (s : fastest) (l : list fevent) : option fastest :=
  match l with
  | [] => Some s
  | e :: l' => match fastest_step n s e with None => None | Some s' => fastest_exec n s' l' end
  end.
