(** What the resolver groups promise, in terms of the events of a run (Call, Sent, Reply, Failed)
    and not of the state of the group. *)
From Verif Require Import Base Bytes Dns Groups_model.
Open Scope nat_scope.

(** The events of one call, as its client and the resolvers see them. *)
Definition of_call (t : nat) (e : gevent) : bool :=
  match e with
  | Call t' | Sent t' _ | Reply t' _ | Failed t' => Nat.eqb t' t
  | _ => false
  end.
Definition mine (t : nat) (l : list gevent) : list gevent := filter (of_call t) l.

(** The resolvers asked, in order *)
Fixpoint sents (l : list gevent) : list nat :=
  match l with [] => [] | Sent _ i :: l' => i :: sents l' | _ :: l' => sents l' end.
(** the resolver the call t asked last *)
Fixpoint last_sent (t : nat) (l : list gevent) (cur : option nat) : option nat :=
  match l with
  | [] => cur
  | Sent t' i :: l' => last_sent t l' (if Nat.eqb t' t then Some i else cur)
  | _ :: l' => last_sent t l' cur
  end.
(** the calls that recorded a failure *)
Fixpoint failures (l : list gevent) : list nat :=
  match l with [] => [] | Failed t :: l' => t :: failures l' | _ :: l' => failures l' end.

(** An attempt that failed: resolver and what it returned. *)
Definition attempt (t : nat) (a : nat * result) : list gevent := [Sent t (fst a); Reply t (snd a); Failed t].

(** What a finished call looks like: some failed attempts (fewer than n), then one success whose
    reply is returned; or n failed attempts, and the last reply is returned. *)
Definition finished (n : nat) (good : result -> bool) (t : nat) (r : result) (evs : list gevent) : Prop :=
  exists failed : list (nat * result),
    Forall (fun a => fst a < n /\ good (snd a) = false) failed /\
    ((exists idx, idx < n /\ good r = true /\ length failed < n /\
                  evs = Call t :: flat_map (attempt t) failed ++ [Sent t idx; Reply t r]) \/
     (length failed = n /\ r = last (map snd failed) Drop /\ evs = Call t :: flat_map (attempt t) failed)).

(** Resolver g never lets a call down in this run. *)
Definition always_good (good : result -> bool) (g : nat) (l : list gevent) : Prop :=
  forall l1 t r l2, l = l1 ++ Reply t r :: l2 -> last_sent t l1 None = Some g -> good r = true.

(** Random group. Every recorded failure of resolver x was followed by its reactivation. *)
Definition eligible (x : nat) (l : list gevent) : Prop :=
  forall l1 t l2, l = l1 ++ Failed t :: l2 -> last_sent t l1 None = Some x -> In (Reactivate x) l2.
(** A finished call: bad replies, then a good one that is returned; or bad replies until a moment
    when no resolver is eligible. *)
Definition rnd_finished (resolvers : list nat) (good : result -> bool) (t : nat) (r : result) (l : list gevent) : Prop :=
  exists failed : list (nat * result),
    Forall (fun a => In (fst a) resolvers /\ good (snd a) = false) failed /\
    ((exists x, In x resolvers /\ good r = true /\
                mine t l = Call t :: flat_map (attempt t) failed ++ [Sent t x; Reply t r]) \/
     (r = Err "no active resolvers left" /\ mine t l = Call t :: flat_map (attempt t) failed /\
      exists l1 l2, l = l1 ++ NoneLeft t :: l2 /\ forall x, In x resolvers -> ~ eligible x l1)).
(** how often x came back *)
Fixpoint reacts (x : nat) (l : list gevent) : nat :=
  match l with [] => 0 | Reactivate y :: l' => (if Nat.eqb y x then 1 else 0) + reacts x l' | _ :: l' => reacts x l' end.

(** Time that passes *)
Fixpoint elapsed (l : list gevent) : Z :=
  match l with [] => 0 | Pass d :: l' => d + elapsed l' | _ :: l' => elapsed l' end%Z.

(** ** What counts as a usable reply, in words: any failed exchange is bad; a REFUSED or NOTIMP
    is bad; a SERVFAIL is bad if the option says so; with the other option on, a reply without
    a record of the asked type is bad, unless it is empty on purpose (an extended error says
    blocked, censored or filtered) or answers an ANY query with more than a lone HINFO. *)
Inductive usable (servfailError emptyError : bool) : result -> Prop :=
| usable_drop : usable servfailError emptyError Drop
| usable_ans : forall a,
    (m_rcode a = RcodeServerFailure -> servfailError = false) ->
    m_rcode a <> RcodeRefused -> m_rcode a <> RcodeNotImplemented ->
    (emptyError = true ->
     (exists rr q qs, In rr (m_answer a) /\ m_question a = q :: qs /\ rr_type rr = q_type q) \/
     (exists q qs, m_question a = q :: qs /\ q_type q = TypeANY /\ m_answer a <> [] /\
                   ~ (exists rr, m_answer a = [rr] /\ rr_type rr = TypeHINFO)) \/
     ((m_answer a = [] \/ m_question a = []) /\
      exists o c x, is_edns0 a = Some o /\ In (EDE c x) (opt_options o) /\ In c [15; 16; 17]%N)) ->
    usable servfailError emptyError (Ans a).

(** ** fastest: the events of one call *)
Fixpoint asks (l : list fevent) : list nat := match l with [] => [] | Ask i :: l' => i :: asks l' | _ :: l' => asks l' end.
Fixpoint arrivals (l : list fevent) : list result :=
  match l with [] => [] | Arrive _ r :: l' => r :: arrivals l' | _ :: l' => arrivals l' end.
(** neither an error nor SERVFAIL *)
Definition fast_usable (r : result) : Prop :=
  match r with Err _ => False | Drop => True | Ans a => m_rcode a <> RcodeServerFailure end.
(** r is the first usable response; or there is none among n, and r is the last *)
Definition fastest_of (n : nat) (arr : list result) (r : result) : Prop :=
  (exists before after, arr = before ++ r :: after /\ Forall (fun x => ~ fast_usable x) before /\ fast_usable r) \/
  (exists before, arr = before ++ [r] /\ length arr = n /\ Forall (fun x => ~ fast_usable x) arr).

(** ** load-balance: [asked] are the resolvers asked, the k-th gave [up k]. *)
Definition lb_finished (n : nat) (good : result -> bool) (up : nat -> nat -> result) (asked : list nat) (r : result) : Prop :=
  NoDup asked /\ (forall i, In i asked -> i < n) /\
  (forall k i, k + 1 < length asked -> nth_error asked k = Some i -> good (up k i) = false) /\
  ((exists k i, k + 1 = length asked /\ nth_error asked k = Some i /\ r = up k i /\ good r = true) \/
   (good r = false /\ length asked = n /\
    ((n = 0 /\ exists e, r = Err e) \/ exists k i, k + 1 = n /\ nth_error asked k = Some i /\ r = up k i))).
