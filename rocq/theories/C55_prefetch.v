(** C55: prefetching. *)
From Verif Require Import Base Bytes Dns Blob_model Cache_model Cache_spec Cache_demo Prefetch_model Prefetch_spec Prefetch_proofs2 Prefetch_proofs3 Redis_demo.
Local Open Scope N_scope.

(** In every history: a query is sent again only after at least [threshold] different requests for the same key, each no later than the
    window after the one before it, and the last one no longer ago than the window (apart from the time it takes to remove expired entries,
    [slack], and the time the code itself takes, [delay]). *)
Theorem C55_threshold : forall key window threshold slack delay l t s k q t1 a b, (0 <= window)%Z -> (0 <= slack)%Z -> (0 <= delay)%Z ->
  acts key window threshold slack delay l (start t) = Some s -> s_log s = a ++ Prefetched k q t1 :: b ->
  exists rs, threshold <= N.of_nat (length rs) /\ NoDup (map fst rs) /\ within (window + slack + 2 * delay) t1 rs /\ forall i t', In (i, t') rs -> exists v, In (Counted i k v t') b.
Proof. exact threshold_met. Qed.
Print Assumptions C55_threshold.
(** The same for what is written in the configuration, where a threshold or window that is not set is 5 queries or one hour. *)
Theorem C55_defaults : forall key n w threshold window slack delay l t s k q t1 a b, configured n w threshold window -> (0 <= w)%Z -> (0 <= slack)%Z -> (0 <= delay)%Z ->
  acts key (window_of w) (threshold_of n) slack delay l (start t) = Some s -> s_log s = a ++ Prefetched k q t1 :: b ->
  exists rs, threshold <= N.of_nat (length rs) /\ NoDup (map fst rs) /\ within (window + slack + 2 * delay) t1 rs /\ forall i t', In (i, t') rs -> exists v, In (Counted i k v t') b.
Proof. exact threshold_configured. Qed.
Print Assumptions C55_defaults.
(** A request counts once, and only if the upstream resolver gave it a good answer. The key is that of the query as the upstream resolver
    left it; [R] is any relation that it respects, such as equality if it does not modify queries. *)
Theorem C55_counted : forall key window threshold slack delay (R : msg -> msg -> Prop) l t s i k v t1 a b, (0 <= window)%Z -> (0 <= slack)%Z -> (0 <= delay)%Z ->
  (forall q, R q q) -> (forall x y z, R x y -> R y z -> R x z) -> (forall x, In x l -> forall q, R q (change x q)) ->
  acts key window threshold slack delay l (start t) = Some s -> s_log s = a ++ Counted i k v t1 :: b ->
  (forall k' v' t', ~ In (Counted i k' v' t') b) /\ exists q0 q1 m, In (Ask i q0) b /\ R q0 q1 /\ key q1 = Some k /\ In (Answer i (Answered m)) b /\ good m.
Proof. exact counted_request. Qed.
Print Assumptions C55_counted.
(** What is sent again is what such a request asked. *)
Theorem C55_query : forall key window threshold slack delay (R : msg -> msg -> Prop) l t s k q t1 a b, (0 <= window)%Z -> (0 <= slack)%Z -> (0 <= delay)%Z ->
  (forall q, R q q) -> (forall x y z, R x y -> R y z -> R x z) -> (forall x, In x l -> forall q, R q (change x q)) ->
  acts key window threshold slack delay l (start t) = Some s -> s_log s = a ++ Prefetched k q t1 :: b ->
  exists i q0 q1 v t', In (Ask i q0) b /\ R q0 q1 /\ key q1 = Some k /\ R q1 q /\ In (Counted i k v t') b.
Proof. exact prefetched_query. Qed.
Print Assumptions C55_query.
Theorem C55_unmodified : forall key window threshold slack delay l t s k q t1 a b, (0 <= window)%Z -> (0 <= slack)%Z -> (0 <= delay)%Z ->
  (forall x, In x l -> forall q, change x q = q) -> acts key window threshold slack delay l (start t) = Some s -> s_log s = a ++ Prefetched k q t1 :: b ->
  key q = Some k /\ exists i, In (Ask i q) b.
Proof. exact same_query. Qed.
Print Assumptions C55_unmodified.
(** Keys are equal exactly for queries that ask the same, as in C05. *)
Theorem C55_key : forall ipString q1 q2, ip_text_ok ipString -> ip_no_space ipString -> query_ok q1 -> query_ok q2 ->
  (prefetchKey ipString q1 = prefetchKey ipString q2 <-> same_question q1 q2) /\ prefetchKey ipString q1 <> None.
Proof. exact prefetch_key. Qed.
Print Assumptions C55_key.
(** A client gets, once, what the upstream resolver answered to its query, which was asked once. *)
Theorem C55_answers : forall key window threshold slack delay l t s i r a b, (0 <= window)%Z -> (0 <= slack)%Z -> (0 <= delay)%Z ->
  acts key window threshold slack delay l (start t) = Some s -> s_log s = a ++ Returned i r :: b ->
  (forall r', ~ In (Returned i r') b) /\ exists b1 b2 q, b = b1 ++ Answer i r :: b2 /\ In (Ask i q) b2 /\ (forall r', ~ In (Answer i r') b1) /\ (forall r', ~ In (Answer i r') b2).
Proof. exact returned_answer. Qed.
Print Assumptions C55_answers.
(** A request that runs without interruption is counted, refreshes the window, and from the threshold on its query is kept to be sent again. *)
Theorem C55_counts : forall key window threshold slack delay l t s q a f ttl k, (0 <= window)%Z -> (0 <= slack)%Z -> (0 <= delay)%Z ->
  acts key window threshold slack delay l (start t) = Some s -> good a -> lasts a ttl -> ttl < 4294967295 -> key (f q) = Some k -> count k s + 1 < 2 ^ 64 ->
  exists n s', acts key window threshold slack delay ([AAsk q; AAnswer (length (s_threads s)) (Answered a) f] ++ repeat (ARun (length (s_threads s))) n) s = Some s' /\
    (exists lg, s_log s' = Returned (length (s_threads s)) (Answered a) :: lg) /\ s_now s' = s_now s /\ count k s' = count k s + 1 /\
    (exists v, lookup k (s_names s') = Some (v, s_now s + window)%Z) /\
    (threshold <= count k s + 1 -> lookup k (s_queries s') = Some (f q, s_now s + Z.of_N ttl * 1000000000)%Z).
Proof. exact call_kept. Qed.
Print Assumptions C55_counts.
(** When the time of such a query is over it is sent again if the threshold is still reached. Whatever happens until the answer comes, a good
    answer makes it wait for another time, as long as that answer lasts; after any other result it is not kept any longer (the library removes
    what the callback does not renew), and a query that does not reach the threshold any more is not sent. *)
Theorem C55_again : forall key window threshold slack delay s k v e q e',
  lookup k (s_names s) = Some (v, e) -> threshold <= count k s -> lookup k (s_queries s) = Some (q, e') ->
  let i := length (s_threads s) in
  exists s1, acts key window threshold slack delay [ACallback k; ARun i; ARun i] s = Some s1 /\ s_log s1 = Prefetched k q (s_now s) :: s_log s /\
  forall l s2, acts key window threshold slack delay l s1 = Some s2 -> (forall r f, ~ In (ACallbackAnswer i r f) l) ->
  forall r f, exists s3, acts key window threshold slack delay [ACallbackAnswer i r f] s2 = Some s3 /\ s_log s3 = s_log s2 /\ s_names s3 = s_names s2 /\
    (forall a ttl, r = Answered a -> good a -> lasts a ttl -> ttl < 4294967295 -> lookup k (s_queries s3) = Some (f q, s_now s2 + Z.of_N ttl * 1000000000)%Z) /\
    ((forall a, r = Answered a -> ~ good a) -> s_queries s3 = s_queries s2).
Proof. exact sent_again. Qed.
Print Assumptions C55_again.
Theorem C55_no_more : forall key window threshold slack delay s k, count k s < threshold -> let i := length (s_threads s) in
  exists s1, acts key window threshold slack delay [ACallback k] s = Some s1 /\ s_log s1 = s_log s /\
    (nth_error (s_threads s1) i = None \/ exists s2, acts key window threshold slack delay [ARun i] s1 = Some s2 /\ s_log s2 = s_log s /\ nth_error (s_threads s2) i = Some Done).
Proof. exact not_sent. Qed.
Print Assumptions C55_no_more.
(** With interruptions not every request is counted: two first requests at the same time make one, although nothing was removed. *)
Theorem C55_race_refuted : exists s, acts demo_key 100 2 0 0 [AAsk demo_q; AAsk demo_q; AAnswer 0 (Answered demo_a) same; AAnswer 1 (Answered demo_a) same; ARun 0; ARun 1; ARun 0; ARun 1; ARun 0; ARun 1; ARun 0; ARun 1] (start 0) = Some s /\
  counts (s_log s) = [0; 0]%Z /\ s_threads s = [Done; Done] /\ s_queries s = [] /\ exists k, demo_key demo_q = Some k /\ count k s = 1.
Proof. exact race. Qed.
Print Assumptions C55_race_refuted.
(** The requests need not lie within one window: with a window of 100 and a threshold of 3, requests at 0, 90 and 180 are enough. *)
Theorem C55_window_refuted : exists l s k, demo_key demo_q = Some k /\ l = call 0 ++ [ATick 90] ++ call 1 ++ [ATick 180] ++ call 2 ++ [ARun 2; ATick 200; ACallback k; ARun 3; ARun 3] /\
  acts demo_key 100 3 0 0 l (start 0) = Some s /\ counts (s_log s) = [180; 90; 0]%Z /\ prefetches (s_log s) = [(demo_q, 200%Z)].
Proof. exact sliding. Qed.
Print Assumptions C55_window_refuted.

(** Hypotheses of C55_threshold, C55_unmodified and C55_counts: the history of C55_window_refuted; those of C55_key: *)
Example key_hyps : ip_text_ok hex_ip /\ ip_no_space hex_ip /\ query_ok (rq "a." [ECS 1 24 0 [10; 0; 0; 0]]).
Proof. exact prefetch_key_hyps. Qed.
Example good_answer : lasts demo_a 300 /\ good demo_a.
Proof.
  split; [split; [eexists; split; [left; reflexivity|split; reflexivity]|intros r [<-|[]] _; cbn; discriminate]|]. split; [reflexivity|]. split; [reflexivity|]. split; [eexists; split; [left; reflexivity|reflexivity]|]. intros r [<-|[]] _. cbn. discriminate.
Qed.
Example unmodified : forall x, In x (call 0) -> forall q, change x q = q.
Proof. intros x H q. repeat destruct H as [<-|H]; try reflexivity. destruct H. Qed.
(** C55_again: with a threshold of 1, one request is enough, its query is sent again and waits for another 300 seconds. *)
Example again : exists k s, demo_key demo_q = Some k /\
  acts demo_key 100 1 0 0 (call 0 ++ [ARun 0; ATick 90; ACallback k; ARun 1; ARun 1; ACallbackAnswer 1 (Answered demo_a) same]) (start 0) = Some s /\
  prefetches (s_log s) = [(demo_q, 90%Z)] /\ lookup k (s_queries s) = Some (demo_q, 300000000090%Z).
Proof. eexists. eexists. split; [vm_compute; reflexivity|]. split; [vm_compute; reflexivity|]. split; vm_compute; reflexivity. Qed.
