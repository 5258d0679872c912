(** What prefetching promises *)
From Verif Require Import Base Bytes Dns Blob_model Cache_model Cache_spec Prefetch_model.
Local Open Scope N_scope.

(** An answer that is good for prefetching: NOERROR, not truncated, with records, none of which expires within two seconds *)
Definition good (a : msg) : Prop :=
  m_rcode a = 0 /\ m_tc a = false /\ (exists r, In r (m_answer a ++ m_ns a ++ m_extra a) /\ is_opt r = false) /\
  (forall r, In r (m_answer a ++ m_ns a ++ m_extra a) -> is_opt r = false -> 2 <= rr_ttl r).
(** How many seconds an answer lasts: as long as the record with the least TTL *)
Definition lasts (a : msg) (ttl : N) : Prop :=
  (exists r, In r (m_answer a ++ m_ns a ++ m_extra a) /\ is_opt r = false /\ rr_ttl r = ttl) /\
  (forall r, In r (m_answer a ++ m_ns a ++ m_extra a) -> is_opt r = false -> ttl <= rr_ttl r).
(** Requests with their times, latest first: at most [gap] apart, and the latest one at most [gap] before [t] *)
Fixpoint within (gap t : Z) (l : list (nat * Z)) : Prop :=
  match l with [] => True | (_, t') :: l' => (t' <= t <= t' + gap)%Z /\ within gap t' l' end.
(** What the upstream resolver does to queries, in a history *)
Definition change (a : action) : msg -> msg := match a with AAnswer _ _ f | ACallbackAnswer _ _ f | AChange _ f => f | _ => fun q => q end.
(** Text forms of addresses have no spaces. *)
Definition ip_no_space (ipString : list N -> string) : Prop := forall a, Cache_spec.addr_ok a -> contains " "%char (ipString a) = false.
(** The value of the counter that is kept for a key *)
Definition count (k : string) (s : state) : N := match lookup k (s_names s) with Some (v, _) => nth v (s_ctrs s) 0 | None => 0 end.
(** Times of counted requests, queries sent again with their times, latest first *)
Definition counts (l : list event) : list Z := flat_map (fun e => match e with Counted _ _ _ t => [t] | _ => [] end) l.
Definition prefetches (l : list event) : list (msg * Z) := flat_map (fun e => match e with Prefetched _ q t => [(q, t)] | _ => [] end) l.

(** What the configuration documentation promises for prefetch-threshold and prefetch-window (in nanoseconds): 0, not set, means 5 queries and
    one hour *)
Inductive configured : N -> Z -> N -> Z -> Prop :=
| configured_both : forall n w, n <> 0%N -> w <> 0%Z -> configured n w n w
| configured_window : forall w, w <> 0%Z -> configured 0 w 5 w
| configured_threshold : forall n, n <> 0%N -> configured n 0 n 3600000000000
| configured_none : configured 0 0 5 3600000000000.
