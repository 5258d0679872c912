(** C19: the rate limiter lets at most the configured number of queries per window and subnet through. *)
From Verif Require Import Base Bytes Net Cidr_spec Net_spec Modifiers_model RateLimit_model RateLimit_spec RateLimit_proofs RateLimit_proofs2.
Open Scope N_scope.

(** The fate of a query is decided by how many earlier ones came from its subnet in its window. *)
Theorem C19_outcome : forall ipString o limit a t x b n,
  ip_text ipString -> 0 < rl_window o /\ rl_prefix4 o <= 32 /\ rl_prefix6 o <= 128 ->
  let w := Z.of_N (rl_window o) in let h := a ++ (t, x) :: b in
  ordered w w h -> Forall (fun e => ip_ok (snd e)) h -> N.of_nat (length h) < 2 ^ 64 ->
  count (fun e => same_window w (fst e) t /\ same_subnet (rl_prefix4 o) (rl_prefix6 o) (snd e) x) a n ->
  nth_error (rl_run ipString o limit h rl_init) (length a) =
  Some (if n <? rl_requests o then RlForward else if limit then RlLimit else RlDrop).
Proof. exact (fun i o l a t x b n T P H1 H2 H3 C => exact_outcome i o l a t x b n (conj T (conj P (conj H1 (conj H2 H3)))) C). Qed.
Print Assumptions C19_outcome.

(** Of all queries of a window and subnet, as many as the limit allows get through, no more. *)
Theorem C19_bound : forall ipString o limit h t x total,
  ip_text ipString -> 0 < rl_window o /\ rl_prefix4 o <= 32 /\ rl_prefix6 o <= 128 ->
  let w := Z.of_N (rl_window o) in
  ordered w w h -> Forall (fun e => ip_ok (snd e)) h -> N.of_nat (length h) < 2 ^ 64 ->
  ip_ok x -> (w <= t)%Z ->
  let here e := same_window w (fst e) t /\ same_subnet (rl_prefix4 o) (rl_prefix6 o) (snd e) x in
  count here h total ->
  count (fun e => here (fst e) /\ snd e = RlForward) (combine h (rl_run ipString o limit h rl_init)) (N.min total (rl_requests o)).
Proof. exact (fun i o l h t x total T P H1 H2 H3 Hx Ht C => forwarded_bound i o l t x h (conj T (conj P (conj H1 (conj H2 H3)))) Hx Ht total C). Qed.
Print Assumptions C19_bound.

(** The defaults *)
Theorem C19_defaults : forall o, let d := rl_defaults o in
  rl_requests d = rl_requests o /\ 0 < rl_window d /\ 0 < rl_prefix4 d /\ 0 < rl_prefix6 d /\
  (rl_window o = 0 -> rl_window d = 60) /\ (rl_prefix4 o = 0 -> rl_prefix4 d = 24) /\ (rl_prefix6 o = 0 -> rl_prefix6 d = 56) /\
  (rl_window o <> 0 -> rl_window d = rl_window o) /\ (rl_prefix4 o <> 0 -> rl_prefix4 d = rl_prefix4 o) /\ (rl_prefix6 o <> 0 -> rl_prefix6 d = rl_prefix6 o).
Proof. exact defaults_spec. Qed.
Print Assumptions C19_defaults.

(** Without non-decreasing times (a query may read the clock before another one and take the mutex after
    it) the counters start afresh, and more queries of one window get through. *)
Theorem C19_race_refuted : forall ipString, exists o h, 
  rl_requests o = 1 /\ map fst h = [60; 119; 120; 119; 120]%Z /\ Forall (fun e => snd e = [10; 0; 0; 1]) h /\
  rl_run ipString o false h rl_init = [RlForward; RlDrop; RlForward; RlForward; RlForward].
Proof. exact race_refuted. Qed.
Print Assumptions C19_race_refuted.

(** In the first window after 1970 (also: with a window longer than the time since then) the map of
    counters is nil and the first query panics. *)
Theorem C19_epoch_refuted : forall ipString o limit x t, 0 < rl_window o -> (0 <= t < Z.of_N (rl_window o))%Z ->
  rl_run ipString o limit [(t, x)] rl_init = [RlPanic].
Proof. exact epoch_refuted. Qed.
Print Assumptions C19_epoch_refuted.

(** A prefix longer than the address puts all clients of the family in one group. *)
Theorem C19_prefix_refuted : forall ipString o x y, 32 < rl_prefix4 o -> is_v4 x -> is_v4 y -> ip_ok x -> ip_ok y ->
  rl_key ipString o x = rl_key ipString o y.
Proof. exact prefix_refuted. Qed.
Print Assumptions C19_prefix_refuted.

(** A text form as required exists, and a history with two subnets and two windows. *)
Example C19_text : ip_text demo_text.
Proof. exact demo_text_ok. Qed.
Example C19_run : let h := [(120, [10;0;0;1]); (121, [10;0;1;1]); (122, [10;0;0;2]); (123, [10;0;0;3]);
                            (179, [32;1;13;184;0;0;0;0;0;0;0;0;0;0;0;1]); (180, [10;0;0;3])]%Z in
  let h := map (fun e => (fst e, map Z.to_N (snd e))) h in
  rl_run demo_text (RlOpts 2 60 24 56) true h rl_init = [RlForward; RlForward; RlForward; RlLimit; RlForward; RlForward] /\
  ordered 60 60 h /\ Forall (fun e => ip_ok (snd e)) h.
Proof. exact demo_run. Qed.
