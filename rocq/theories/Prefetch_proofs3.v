(** What happens to the queries that are kept to be sent again *)
From Verif Require Import Base Bytes Dns Blob_model Cache_model Cache_spec Redis_model Prefetch_model Prefetch_spec Prefetch_proofs Prefetch_proofs2.
Local Open Scope N_scope.

Lemma min_loop_least ttl l : forall mn fd, (forall r, In r l -> is_opt r = false -> ttl <= rr_ttl r) ->
  (ttl < mn /\ (exists r, In r l /\ is_opt r = false /\ rr_ttl r = ttl)) \/ (mn = ttl /\ fd = true) -> min_loop l mn fd = (ttl, true).
Proof.
  induction l as [|a l IH]; intros mn fd L H; cbn [min_loop].
  - destruct H as [(_ & r & [] & _)|[-> ->]]. reflexivity.
  - assert (L' : forall r, In r l -> is_opt r = false -> ttl <= rr_ttl r) by (intros r I; apply L; right; exact I).
    destruct (is_opt a) eqn:O.
    + apply IH; [exact L'|]. destruct H as [(A & r & [<-|I] & N & T)|H]; [congruence|left; eauto|right; exact H].
    + specialize (L a (or_introl eq_refl) O). destruct (rr_ttl a <? mn) eqn:T; apply IH; try exact L'.
      * destruct H as [(A & r & [<-|I] & N & E)|[-> ->]]; [right; auto| |lia]. destruct (N.eq_dec (rr_ttl a) ttl) as [E'|E']; [right; auto|left; split; [lia|eauto]].
      * destruct H as [(A & r & [<-|I] & N & E)|H]; [lia|left; eauto|right; exact H].
Qed.
Lemma good_usable a ttl : good a -> lasts a ttl -> ttl < 4294967295 -> usable (Answered a) = Some ttl.
Proof.
  intros (R & T & _ & G) (X & L) B. cbn [usable]. rewrite R, T. cbn [negb orb RcodeSuccess N.eqb]. unfold minTTL.
  rewrite (min_loop_least ttl _ MaxUint32 false L (or_introl (conj B X))). destruct X as (r & I & O & <-). specialize (G r I O). cbn [negb orb]. destruct (rr_ttl r <? 2) eqn:E; [lia|reflexivity].
Qed.
Lemma bad_unusable r : (forall a, r = Answered a -> ~ good a) -> usable r = None.
Proof. intros H. destruct (usable r) as [t|] eqn:E; [|reflexivity]. destruct (usable_good r t E) as (a & -> & G & _). destruct (H a eq_refl G). Qed.
Lemma call_kept key window threshold slack delay l t s q a f ttl k : (0 <= window)%Z -> (0 <= slack)%Z -> (0 <= delay)%Z -> acts key window threshold slack delay l (start t) = Some s ->
  good a -> lasts a ttl -> ttl < 4294967295 -> key (f q) = Some k -> count k s + 1 < 2 ^ 64 ->
  exists n s', acts key window threshold slack delay ([AAsk q; AAnswer (length (s_threads s)) (Answered a) f] ++ repeat (ARun (length (s_threads s))) n) s = Some s' /\
    (exists lg, s_log s' = Returned (length (s_threads s)) (Answered a) :: lg) /\ s_now s' = s_now s /\ count k s' = count k s + 1 /\
    (exists v, lookup k (s_names s') = Some (v, s_now s + window)%Z) /\
    (threshold <= count k s + 1 -> lookup k (s_queries s') = Some (f q, s_now s + Z.of_N ttl * 1000000000)%Z).
Proof. intros W SL DL E G L B. exact (call_counts key window threshold slack delay l t s q (Answered a) f ttl k W SL DL E (good_usable a ttl G L B)). Qed.

Section AGAIN.
Variable key : msg -> option string.
Variables (window : Z) (threshold : N) (slack delay : Z).
Notation acts := (acts key window threshold slack delay).
Notation act := (act key window threshold slack delay).

(** A callback that waits goes on waiting until its query is answered. *)
Lemma set_nth_other {A} n (x : A) l i : i <> n -> nth_error (set_nth n x l) i = nth_error l i.
Proof. revert n i. induction l as [|a l IH]; intros [|n] [|i] H; cbn; try reflexivity; try congruence. apply IH. congruence. Qed.
Lemma waits_run i k q j th s s' : nth_error (s_threads s) i = Some (CWait k q) -> nth_error (s_threads s) j = Some th -> run window threshold j th s = Some s' -> nth_error (s_threads s') i = Some (CWait k q).
Proof.
  intros I J R. assert (D : i <> j) by (intros ->; rewrite I in J; injection J as <-; discriminate R).
  destruct th as [q'|p q' k' ttl r t0| |k' v t0|k' v t0|k' q']; try discriminate R; [destruct p| |]; cbn [run] in R;
    repeat match type of R with context [match ?x with _ => _ end] => destruct x end; injection R as <-; cbn [log set_thread set_names set_ctrs set_queries s_threads]; rewrite set_nth_other by exact D; exact I.
Qed.
Lemma waits_act i k q a s s' : nth_error (s_threads s) i = Some (CWait k q) -> (forall r f, a <> ACallbackAnswer i r f) -> act a s = Some s' -> nth_error (s_threads s') i = Some (CWait k q).
Proof.
  intros I N A. assert (L : (i < length (s_threads s))%nat) by (apply nth_error_Some; congruence).
  destruct a as [q'|j r f|j|k'|j r f|k' f|f g|t']; cbn [Prefetch_model.act] in A.
  - injection A as <-. cbn [log add_thread s_threads]. rewrite nth_error_app1 by exact L. exact I.
  - destruct (nth_error (s_threads s) j) as [th|] eqn:J; [|discriminate A]. assert (D : i <> j \/ exists k' q', th = CWait k' q') by (destruct (Nat.eq_dec i j) as [<-|]; [right; rewrite I in J; injection J as <-; eauto|left; assumption]).
    destruct th as [q'|p q' k' ttl r' t0| |k' v t0|k' v t0|k' q']; try discriminate A. destruct D as [D|(? & ? & X)]; [|discriminate X].
    repeat match type of A with context [match ?x with _ => _ end] => destruct x end; try discriminate A; injection A as <-; cbn [log set_thread s_threads]; rewrite set_nth_other by exact D; exact I.
  - destruct (nth_error (s_threads s) j) as [th|] eqn:J; [|discriminate A]. exact (waits_run i k q j th s s' I J A).
  - destruct (lookup k' (s_names s)) as [[v e]|]; injection A as <-; [|exact I]. cbn [add_thread s_threads]. rewrite nth_error_app1 by exact L. exact I.
  - assert (D : i <> j) by (intros <-; exact (N r f eq_refl)). destruct (nth_error (s_threads s) j) as [th|] eqn:J; [|discriminate A].
    destruct th as [q'|p q' k' ttl r' t0| |k' v t0|k' v t0|k' q']; try discriminate A. injection A as <-. destruct (usable r); cbn [set_queries set_thread s_threads]; rewrite set_nth_other by exact D; exact I.
  - injection A as <-. exact I.
  - injection A as <-. exact I.
  - destruct (_ && _); [|discriminate A]. injection A as <-. exact I.
Qed.
Lemma waits_acts i k q l : forall s s', nth_error (s_threads s) i = Some (CWait k q) -> (forall r f, ~ In (ACallbackAnswer i r f) l) -> acts l s = Some s' -> nth_error (s_threads s') i = Some (CWait k q).
Proof.
  induction l as [|a l IH]; intros s s' I N A; cbn [Prefetch_model.acts] in A; [injection A as <-; exact I|].
  destruct (act a s) as [s1|] eqn:E; [|discriminate A]. apply (IH s1 s'); [|intros r f X; exact (N r f (or_intror X))|exact A]. apply (waits_act i k q a s s1 I); [|exact E]. intros r f ->. exact (N r f (or_introl eq_refl)).
Qed.
Lemma sends s k v e q e' : lookup k (s_names s) = Some (v, e) -> threshold <= count k s -> lookup k (s_queries s) = Some (q, e') ->
  exists s1, acts [ACallback k; ARun (length (s_threads s)); ARun (length (s_threads s))] s = Some s1 /\ s_log s1 = Prefetched k q (s_now s) :: s_log s /\
    s_queries s1 = s_queries s /\ s_names s1 = s_names s /\ nth_error (s_threads s1) (length (s_threads s)) = Some (CWait k q).
Proof.
  intros K T Q. unfold count in T. rewrite K in T. destruct (nth v (s_ctrs s) 0 <? threshold) eqn:LT; [lia|].
  cbn [Prefetch_model.acts Prefetch_model.act]. rewrite K. unfold add_thread. cbn [s_threads]. rewrite get_last. cbn [run s_ctrs s_threads]. rewrite LT. unfold set_thread. cbn [s_threads s_now s_ctrs s_names s_queries s_log]. rewrite set_last, get_last.
  cbn [run s_queries]. rewrite Q. unfold log, set_thread. cbn [s_threads s_now s_ctrs s_names s_queries s_log]. rewrite set_last. eexists. split; [reflexivity|]. cbn [s_threads s_now s_ctrs s_names s_queries s_log]. split; [reflexivity|]. split; [reflexivity|]. split; [reflexivity|apply get_last].
Qed.
Lemma sent_again s k v e q e' : lookup k (s_names s) = Some (v, e) -> threshold <= count k s -> lookup k (s_queries s) = Some (q, e') ->
  let i := length (s_threads s) in
  exists s1, acts [ACallback k; ARun i; ARun i] s = Some s1 /\ s_log s1 = Prefetched k q (s_now s) :: s_log s /\
  forall l s2, acts l s1 = Some s2 -> (forall r f, ~ In (ACallbackAnswer i r f) l) -> forall r f, exists s3, acts [ACallbackAnswer i r f] s2 = Some s3 /\ s_log s3 = s_log s2 /\ s_names s3 = s_names s2 /\
    (forall a ttl, r = Answered a -> good a -> lasts a ttl -> ttl < 4294967295 -> lookup k (s_queries s3) = Some (f q, s_now s2 + Z.of_N ttl * 1000000000)%Z) /\
    ((forall a, r = Answered a -> ~ good a) -> s_queries s3 = s_queries s2).
Proof.
  intros K T Q i. destruct (sends s k v e q e' K T Q) as (s1 & A & L & _ & _ & W). exists s1. split; [exact A|]. split; [exact L|].
  intros l s2 E N r f. cbn [Prefetch_model.acts Prefetch_model.act]. rewrite (waits_acts i k q l s1 s2 W N E). eexists. split; [reflexivity|].
  split; [destruct (usable r); reflexivity|]. split; [destruct (usable r); reflexivity|]. split.
  - intros a ttl -> G LA B. rewrite (good_usable a ttl G LA B). cbn [set_queries s_queries]. rewrite lookup_put. reflexivity.
  - intros B. rewrite (bad_unusable r B). reflexivity.
Qed.
(** Not eligible any more: nothing is sent. *)
Lemma not_sent s k : count k s < threshold -> let i := length (s_threads s) in
  exists s1, acts [ACallback k] s = Some s1 /\ s_log s1 = s_log s /\
    (nth_error (s_threads s1) i = None \/ exists s2, acts [ARun i] s1 = Some s2 /\ s_log s2 = s_log s /\ nth_error (s_threads s2) i = Some Done).
Proof.
  intros T i. cbn [Prefetch_model.acts Prefetch_model.act]. unfold count in T. destruct (lookup k (s_names s)) as [[v e]|]; eexists; (split; [reflexivity|]); cbn [add_thread s_log s_threads].
  - split; [reflexivity|]. right. unfold i. rewrite get_last. cbn [run add_thread s_ctrs]. destruct (nth v (s_ctrs s) 0 <? threshold) eqn:LT; [|lia].
    eexists. split; [reflexivity|]. cbn [set_thread s_log s_threads add_thread]. split; [reflexivity|]. rewrite set_last. apply get_last.
  - split; [reflexivity|]. left. apply nth_error_None. unfold i. lia.
Qed.
End AGAIN.
