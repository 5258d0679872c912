From Verif Require Import Base Base_proofs Bytes Dns Blob_model Cache_model Cache_spec Cache_proofs Redis_model Redis_proofs Cache_demo Redis_demo Prefetch_model Prefetch_spec Prefetch_proofs.
From Coq Require Import DecimalString ZifyBool ZifyNat ZifyN.
Local Open Scope N_scope.

(** The key *)
Lemma contains_app c a b : contains c (a ++ b)%string = contains c a || contains c b.
Proof. induction a as [|x a IH]; [reflexivity|]. cbn [append contains]. rewrite IH, orb_assoc. reflexivity. Qed.
Lemma cut_last c s1 r1 s2 r2 : contains c r1 = false -> contains c r2 = false -> (s1 ++ String c r1)%string = (s2 ++ String c r2)%string -> s1 = s2 /\ r1 = r2.
Proof.
  intros C1 C2. revert s2. induction s1 as [|x s1 IH]; intros [|y s2] E; cbn [append] in E.
  - injection E as ->. auto.
  - injection E as _ E. rewrite E, contains_app in C1. cbn [contains] in C1. rewrite Ascii.eqb_refl, orb_true_r in C1. discriminate C1.
  - injection E as _ E. rewrite <- E, contains_app in C2. cbn [contains] in C2. rewrite Ascii.eqb_refl, orb_true_r in C2. discriminate C2.
  - injection E as <- E. destruct (IH _ E) as [-> ->]. auto.
Qed.
Lemma append_assoc a b c : ((a ++ b) ++ c)%string = (a ++ (b ++ c))%string.
Proof. induction a as [|x a IH]; [reflexivity|]. cbn [append]. rewrite IH. reflexivity. Qed.
Lemma uint_no_space d : contains " "%char (NilEmpty.string_of_uint d) = false.
Proof. induction d; cbn; auto. Qed.
Lemma itoa_no_space n : contains " "%char (itoa n) = false.
Proof. unfold itoa, NilZero.string_of_uint. destruct (N.to_uint n) eqn:E; try reflexivity; exact (uint_no_space _). Qed.
Lemma bool_no_space b : contains " "%char (boolText b) = false. Proof. destruct b; reflexivity. Qed.
Lemma keyText_inj k1 k2 : contains " "%char (k_net k1) = false -> contains " "%char (k_net k2) = false -> keyText k1 = keyText k2 -> k1 = k2.
Proof.
  intros N1 N2.
  assert (S : forall k, keyText k = ((((((("{Question:{Name:" ++ q_name (k_q k)) ++ String " " ("Qtype:" ++ itoa (q_type (k_q k)))) ++ String " " ("Qclass:" ++ itoa (q_class (k_q k)) ++ "}")) ++ String " " ("Net:" ++ k_net k)) ++
     String " " ("Do:" ++ boolText (k_do k))) ++ String " " ("CD:" ++ boolText (k_cd k))) ++ String " " ("ECSMask:" ++ itoa (k_mask k) ++ "}"))%string).
  { intros k. unfold keyText. rewrite !append_assoc. cbn [append]. rewrite !append_assoc. cbn [append]. rewrite ?append_assoc. reflexivity. }
  rewrite !S. clear S. intros E.
  destruct k1 as [[n1 t1 c1] net1 do1 cd1 m1], k2 as [[n2 t2 c2] net2 do2 cd2 m2]. cbn [k_q k_net k_do k_cd k_mask q_name q_type q_class] in *.
  apply cut_last in E; [|rewrite !contains_app, itoa_no_space; reflexivity..]. destruct E as [E F]. injection F as F. apply app_last_inj in F. apply itoa_inj in F. subst.
  apply cut_last in E; [|rewrite !contains_app, bool_no_space; reflexivity..]. destruct E as [E F]. injection F as F. assert (cd1 = cd2) by (destruct cd1, cd2; try reflexivity; discriminate F). subst.
  apply cut_last in E; [|rewrite !contains_app, bool_no_space; reflexivity..]. destruct E as [E F0]. injection F0 as F0. assert (do1 = do2) by (destruct do1, do2; try reflexivity; discriminate F0). subst.
  apply cut_last in E; [|rewrite contains_app, ?N1, ?N2; reflexivity..]. destruct E as [E F1]. injection F1 as F1. subst.
  apply cut_last in E; [|rewrite !contains_app, itoa_no_space; reflexivity..]. destruct E as [E F1]. injection F1 as F1. apply app_last_inj in F1. apply itoa_inj in F1. subst.
  apply cut_last in E; [|rewrite !contains_app, itoa_no_space; reflexivity..]. destruct E as [E F1]. injection F1 as F1. apply itoa_inj in F1. subst. injection E as ->. reflexivity.
Qed.
Lemma prefetch_key ipString q1 q2 : ip_text_ok ipString -> ip_no_space ipString -> query_ok q1 -> query_ok q2 ->
  (prefetchKey ipString q1 = prefetchKey ipString q2 <-> same_question q1 q2) /\ prefetchKey ipString q1 <> None.
Proof.
  intros IP SP Q1 Q2. rewrite <- (key_iff ipString IP q1 q2 Q1 Q2). unfold prefetchKey.
  assert (NS : forall q k, query_ok q -> lruKeyFromQuery ipString q = Some k -> contains " "%char (k_net k) = false).
  { intros q k Q E. pose proof (sub_pair_cases ipString q Q) as P. destruct Q as [Q _]. destruct (m_question q) as [|x l] eqn:M; [contradiction|]. rewrite (key_shape _ _ _ _ M) in E. injection E as <-. cbn [k_net]. destruct (client_subnet q) as [[m c]|]; [destruct P as (a & _ & A & _ & ->); apply SP, A|rewrite P; reflexivity]. }
  destruct (lruKeyFromQuery ipString q1) as [k1|] eqn:E1.
  2: { destruct Q1 as [Q1 _]. destruct (m_question q1) eqn:M; [contradiction|]. rewrite (key_shape _ _ _ _ M) in E1. discriminate E1. }
  destruct (lruKeyFromQuery ipString q2) as [k2|] eqn:E2.
  2: { destruct Q2 as [Q2 _]. destruct (m_question q2) eqn:M; [contradiction|]. rewrite (key_shape _ _ _ _ M) in E2. discriminate E2. }
  cbn [option_map]. split; [|discriminate]. split; intros H; [|congruence]. assert (G : keyText k1 = keyText k2) by congruence. f_equal. exact (keyText_inj _ _ (NS _ _ Q1 E1) (NS _ _ Q2 E2) G).
Qed.

(** Answers *)
Lemma min_loop_sound l : forall mn fd m, min_loop l mn fd = (m, true) -> m <= mn /\ (fd = true \/ exists r, In r l /\ is_opt r = false) /\ forall r, In r l -> is_opt r = false -> m <= rr_ttl r.
Proof.
  induction l as [|a l IH]; intros mn fd m; cbn [min_loop].
  - intros H. injection H as -> ->. split; [lia|]. split; [auto|]. intros r [].
  - destruct (is_opt a) eqn:O.
    + intros H. apply IH in H. destruct H as (A & B & C). split; [exact A|]. split; [destruct B as [B|(r & B & B')]; [auto|right; exists r; split; [right; exact B|exact B']]|]. intros r [<-|R] N; [congruence|auto].
    + destruct (rr_ttl a <? mn) eqn:T; intros H; apply IH in H; destruct H as (A & B & C).
      * split; [lia|]. split; [right; exists a; split; [left; reflexivity|exact O]|]. intros r [<-|R] N; [exact A|auto].
      * split; [exact A|]. split; [destruct B as [B|(r & B & B')]; [auto|right; exists r; split; [right; exact B|exact B']]|]. intros r [<-|R] N; [lia|auto].
Qed.
Lemma usable_good r ttl : usable r = Some ttl -> exists a, r = Answered a /\ good a /\ 2 <= ttl /\ forall x, In x (m_answer a ++ m_ns a ++ m_extra a) -> is_opt x = false -> ttl <= rr_ttl x.
Proof.
  destruct r as [| |a]; try discriminate. cbn [usable]. destruct (negb (m_rcode a =? RcodeSuccess) || m_tc a) eqn:C; [discriminate|]. apply orb_false_iff in C. destruct C as [C1 C2]. apply negb_false_iff, N.eqb_eq in C1. unfold RcodeSuccess in C1.
  destruct (minTTL a) as [mn ok] eqn:M. destruct (negb ok || (mn <? 2)) eqn:D; [discriminate|]. apply orb_false_iff in D. destruct D as [D1 D2]. apply negb_false_iff in D1. subst ok. intros H. injection H as ->. unfold minTTL in M. apply min_loop_sound in M. destruct M as (_ & [B|B] & C); [discriminate B|].
  exists a. split; [reflexivity|]. split; [|split; [lia|exact C]]. split; [exact C1|]. split; [exact C2|]. split; [exact B|]. intros r I N. specialize (C _ I N). lia.
Qed.

(** What has happened before a prefetch, and to a client's query *)
Section LOG.
Variable key : msg -> option string.
Variables (window : Z) (threshold : N) (slack delay : Z).
Notation reached l t s := (acts key window threshold slack delay l (start t) = Some s).
Lemma threshold_met l t s k q t1 a b : (0 <= window)%Z -> (0 <= slack)%Z -> (0 <= delay)%Z -> reached l t s -> s_log s = a ++ Prefetched k q t1 :: b ->
  exists rs, threshold <= N.of_nat (length rs) /\ NoDup (map fst rs) /\ within (window + slack + 2 * delay) t1 rs /\ forall i t', In (i, t') rs -> exists v, In (Counted i k v t') b.
Proof.
  intros W SL DL E L. exact (proj1 (reach key window threshold slack delay W SL DL (fun _ _ => True) (fun _ => I) (fun _ _ _ _ _ => I) l t s (fun _ _ _ => I) E _ _ _ L)).
Qed.
Lemma counted_request (R : msg -> msg -> Prop) l t s i k v t1 a b : (0 <= window)%Z -> (0 <= slack)%Z -> (0 <= delay)%Z -> (forall q : msg, R q q) -> (forall x y z, R x y -> R y z -> R x z) -> (forall x, In x l -> forall q, R q (change x q)) ->
  reached l t s -> s_log s = a ++ Counted i k v t1 :: b ->
  (forall k' v' t', ~ In (Counted i k' v' t') b) /\ exists q0 q1 m, In (Ask i q0) b /\ R q0 q1 /\ key q1 = Some k /\ In (Answer i (Answered m)) b /\ good m.
Proof.
  intros W SL DL RR RT C E L. destruct (reach key window threshold slack delay W SL DL R RR RT l t s C E _ _ _ L) as [A (q0 & q1 & r & ttl & B1 & B2 & B3 & B4 & B5)]. split; [exact A|]. destruct (usable_good _ _ B5) as (m & -> & G & _). exists q0, q1, m. auto.
Qed.
Lemma prefetched_query (R : msg -> msg -> Prop) l t s k q t1 a b : (0 <= window)%Z -> (0 <= slack)%Z -> (0 <= delay)%Z -> (forall q : msg, R q q) -> (forall x y z, R x y -> R y z -> R x z) -> (forall x, In x l -> forall q, R q (change x q)) ->
  reached l t s -> s_log s = a ++ Prefetched k q t1 :: b ->
  exists i q0 q1 v t', In (Ask i q0) b /\ R q0 q1 /\ key q1 = Some k /\ R q1 q /\ In (Counted i k v t') b.
Proof. intros W SL DL RR RT C E L. exact (proj2 (reach key window threshold slack delay W SL DL R RR RT l t s C E _ _ _ L)). Qed.
Lemma same_query l t s k q t1 a b : (0 <= window)%Z -> (0 <= slack)%Z -> (0 <= delay)%Z -> (forall x, In x l -> forall q, change x q = q) ->
  reached l t s -> s_log s = a ++ Prefetched k q t1 :: b -> key q = Some k /\ exists i, In (Ask i q) b.
Proof.
  intros W SL DL C E L. destruct (prefetched_query eq l t s k q t1 a b W SL DL (fun q => eq_refl) (fun x y z => @eq_trans _ x y z) (fun x X q0 => eq_sym (C x X q0)) E L) as (i & q0 & q1 & v & t' & A & <- & K & <- & _). eauto.
Qed.
Lemma returned_answer l t s i r a b : (0 <= window)%Z -> (0 <= slack)%Z -> (0 <= delay)%Z -> reached l t s -> s_log s = a ++ Returned i r :: b ->
  (forall r', ~ In (Returned i r') b) /\ exists b1 b2 q, b = b1 ++ Answer i r :: b2 /\ In (Ask i q) b2 /\ (forall r', ~ In (Answer i r') b1) /\ (forall r', ~ In (Answer i r') b2).
Proof.
  intros W SL DL E L. pose proof (reach key window threshold slack delay W SL DL (fun _ _ => True) (fun _ => I) (fun _ _ _ _ _ => I) l t s (fun _ _ _ => I) E) as LO. destruct (LO _ _ _ L) as [A B]. split; [exact A|].
  apply in_split in B. destruct B as (b1 & b2 & ->). destruct (LO (a ++ Returned i r :: b1) (Answer i r) b2) as [N (q & Q)]; [rewrite L, <- app_assoc; reflexivity|]. exists b1, b2, q. split; [reflexivity|]. split; [exact Q|]. split; [|exact N].
  intros r' X. apply in_split in X. destruct X as (c1 & c2 & ->). destruct (LO (a ++ Returned i r :: c1) (Answer i r') (c2 ++ Answer i r :: b2)) as [N' _]; [rewrite L, <- !app_assoc; reflexivity|]. apply (N' r). apply in_or_app. right. left. reflexivity.
Qed.

(** One call after the other *)
Lemma acts_app l1 l2 s : acts key window threshold slack delay (l1 ++ l2) s = match acts key window threshold slack delay l1 s with None => None | Some s1 => acts key window threshold slack delay l2 s1 end.
Proof. revert s. induction l1 as [|a l1 IH]; intros s; [reflexivity|]. cbn [app acts]. destruct (act key window threshold slack delay a s); [apply IH|reflexivity]. Qed.
Lemma set_last {A} (l : list A) x y : set_nth (length l) y (l ++ [x]) = l ++ [y].
Proof. induction l as [|a l IH]; [reflexivity|]. cbn. rewrite IH. reflexivity. Qed.
Lemma get_last {A} (l : list A) x : nth_error (l ++ [x]) (length l) = Some x.
Proof. rewrite nth_error_app2 by lia. rewrite Nat.sub_diag. reflexivity. Qed.
Lemma lookup_put {A} k (a : A) l : lookup k (put k a l) = Some a.
Proof. cbn. rewrite String.eqb_refl. reflexivity. Qed.
Lemma step_last T th l n c nm qs lg : acts key window threshold slack delay (ARun (length T) :: l) (State n c nm qs (T ++ [th]) lg) =
  match run window threshold (length T) th (State n c nm qs (T ++ [th]) lg) with None => None | Some s' => acts key window threshold slack delay l s' end.
Proof. cbn [acts act s_threads]. rewrite get_last. reflexivity. Qed.
Lemma run_add T x v q k ttl r t0 n c nm qs lg : run window threshold (length T) (Run (SAdd v) q k ttl r t0) (State n c nm qs (T ++ [x]) lg) =
  Some (State n (set_nth v ((nth v c 0 + 1) mod 2 ^ 64) c) nm qs (T ++ [Run (SPut v) q k ttl r t0]) (Counted (length T) k v n :: lg)).
Proof. cbn [run]. unfold log, set_thread, set_ctrs. cbn [s_threads s_now s_ctrs s_names s_queries s_log]. rewrite set_last. reflexivity. Qed.
Lemma run_put T x v q k ttl r t0 n c nm qs lg : run window threshold (length T) (Run (SPut v) q k ttl r t0) (State n c nm qs (T ++ [x]) lg) =
  Some (State n c (put k (v, n + window)%Z nm) qs (T ++ [Run (SLoad v) q k ttl r t0]) lg).
Proof. cbn [run]. unfold set_thread, set_names. cbn [s_threads s_now s_ctrs s_names s_queries s_log]. rewrite set_last. reflexivity. Qed.
Lemma run_load T x v q k ttl r t0 n c nm qs lg : run window threshold (length T) (Run (SLoad v) q k ttl r t0) (State n c nm qs (T ++ [x]) lg) =
  Some (if threshold <=? nth v c 0 then State n c nm qs (T ++ [Run SCache q k ttl r t0]) lg else State n c nm qs (T ++ [Done]) (Returned (length T) r :: lg)).
Proof. cbn [run]. unfold log, set_thread. cbn [s_threads s_now s_ctrs s_names s_queries s_log]. rewrite !set_last. destruct (threshold <=? nth v c 0); reflexivity. Qed.
Lemma run_cache T x q k ttl r t0 n c nm qs lg : run window threshold (length T) (Run SCache q k ttl r t0) (State n c nm qs (T ++ [x]) lg) =
  Some (State n c nm (put k (q, n + Z.of_N ttl * second)%Z qs) (T ++ [Done]) (Returned (length T) r :: lg)).
Proof. cbn [run]. unfold log, set_thread, set_queries. cbn [s_threads s_now s_ctrs s_names s_queries s_log]. rewrite !set_last. reflexivity. Qed.
Lemma ask_answer s q r f ttl k l : usable r = Some ttl -> key (f q) = Some k ->
  acts key window threshold slack delay ([AAsk q; AAnswer (length (s_threads s)) r f] ++ l) s =
  acts key window threshold slack delay l (State (s_now s) (s_ctrs s) (s_names s) (s_queries s) (s_threads s ++ [Run SGet (f q) k ttl r (s_now s)]) (Answer (length (s_threads s)) r :: Ask (length (s_threads s)) q :: s_log s)).
Proof. intros U K. cbn [app acts act]. unfold log, add_thread. cbn [s_threads s_now s_ctrs s_names s_queries s_log]. rewrite get_last, U, K. unfold set_thread. cbn [s_threads s_now s_ctrs s_names s_queries s_log]. rewrite set_last. reflexivity. Qed.
Lemma one_call s q r f ttl k : usable r = Some ttl -> key (f q) = Some k -> (forall v e, lookup k (s_names s) = Some (v, e) -> (v < length (s_ctrs s))%nat) -> count k s + 1 < 2 ^ 64 ->
  exists n s', acts key window threshold slack delay ([AAsk q; AAnswer (length (s_threads s)) r f] ++ repeat (ARun (length (s_threads s))) n) s = Some s' /\
    (exists lg, s_log s' = Returned (length (s_threads s)) r :: lg) /\ s_now s' = s_now s /\ count k s' = count k s + 1 /\
    (exists v, lookup k (s_names s') = Some (v, s_now s + window)%Z /\ (v < length (s_ctrs s'))%nat) /\
    (threshold <= count k s + 1 -> lookup k (s_queries s') = Some (f q, s_now s + Z.of_N ttl * second)%Z).
Proof.
  intros U K VL LT. set (i := length (s_threads s)).
  assert (NW : nth_error (s_threads s ++ [Wait q]) i = Some (Wait q)) by apply get_last.
  assert (GO : forall v cs n, (v < length cs)%nat -> nth v cs 0 = count k s -> lookup k (s_names s) = None \/ (exists e, lookup k (s_names s) = Some (v, e)) ->
    acts key window threshold slack delay ([AAsk q; AAnswer i r f] ++ repeat (ARun i) (S n)) s =
    acts key window threshold slack delay (repeat (ARun i) n) (State (s_now s) cs (s_names s) (s_queries s) (s_threads s ++ [Run (SAdd v) (f q) k ttl r (s_now s)]) (Answer i r :: Ask i q :: s_log s)) ->
    exists s', acts key window threshold slack delay ([AAsk q; AAnswer i r f] ++ repeat (ARun i) (S n)) s = Some s' /\
    (exists lg, s_log s' = Returned i r :: lg) /\ s_now s' = s_now s /\ count k s' = count k s + 1 /\
    (exists v, lookup k (s_names s') = Some (v, s_now s + window)%Z /\ (v < length (s_ctrs s'))%nat) /\
    (threshold <= count k s + 1 -> lookup k (s_queries s') = Some (f q, s_now s + Z.of_N ttl * second)%Z) \/ n <> (if threshold <=? count k s + 1 then 4%nat else 3%nat)).
  { intros v cs n VC NV _ EQ. destruct (Nat.eq_dec n (if threshold <=? count k s + 1 then 4%nat else 3%nat)) as [EN|]; [|exists s; right; assumption].
    assert (M : (nth v cs 0 + 1) mod 2 ^ 64 = count k s + 1) by (rewrite NV; apply N.mod_small, LT).
    assert (M' : nth v (set_nth v (count k s + 1) cs) 0 = count k s + 1) by (rewrite set_nth_nth, Nat.eqb_refl; destruct (Nat.ltb_spec v (length cs)); [reflexivity|lia]).
    rewrite EQ. destruct (threshold <=? count k s + 1) eqn:T; subst n; cbn [repeat]; unfold i; rewrite step_last, run_add, M, step_last, run_put, step_last, run_load, M', T.
    - rewrite step_last, run_cache. cbn [acts]. eexists. left. split; [reflexivity|]. cbn [s_threads s_now s_ctrs s_names s_queries s_log].
      split; [eauto|]. split; [reflexivity|]. split; [unfold count at 1; cbn [s_threads s_now s_ctrs s_names s_queries s_log]; rewrite lookup_put; exact M'|]. split; [exists v; rewrite set_nth_length, lookup_put; auto|intros _; apply lookup_put].
    - cbn [acts]. eexists. left. split; [reflexivity|]. cbn [s_threads s_now s_ctrs s_names s_queries s_log].
      split; [eauto|]. split; [reflexivity|]. split; [unfold count at 1; cbn [s_threads s_now s_ctrs s_names s_queries s_log]; rewrite lookup_put; exact M'|]. split; [exists v; rewrite set_nth_length, lookup_put; auto|intros X; lia]. }
  exists (S (if threshold <=? count k s + 1 then 4%nat else 3%nat)).
  destruct (lookup k (s_names s)) as [[v e]|] eqn:LK.
  - destruct (GO v (s_ctrs s) (if threshold <=? count k s + 1 then 4%nat else 3%nat)) as [s' [H|H]]; [eapply VL; reflexivity|unfold count; rewrite LK; reflexivity|right; eauto| |exists s'; exact H|contradiction].
    unfold i. rewrite (ask_answer _ _ _ _ _ _ _ U K). cbn [repeat]. rewrite step_last. cbn [run s_names]. rewrite LK. unfold set_thread, set_ctrs. cbn [s_threads s_now s_ctrs s_names s_queries s_log]. rewrite set_last. reflexivity.
  - destruct (GO (length (s_ctrs s)) (s_ctrs s ++ [0]) (if threshold <=? count k s + 1 then 4%nat else 3%nat)) as [s' [H|H]]; [rewrite app_length; cbn; lia|unfold count; rewrite LK, app_nth2 by lia; rewrite Nat.sub_diag; reflexivity|left; reflexivity| |exists s'; exact H|contradiction].
    unfold i. rewrite (ask_answer _ _ _ _ _ _ _ U K). cbn [repeat]. rewrite step_last. cbn [run s_names]. rewrite LK. unfold set_thread, set_ctrs. cbn [s_threads s_now s_ctrs s_names s_queries s_log]. rewrite set_last. reflexivity.
Qed.
End LOG.
Lemma reached_wf key window threshold slack delay l t s k v e : (0 <= window)%Z -> (0 <= slack)%Z -> (0 <= delay)%Z -> acts key window threshold slack delay l (start t) = Some s -> lookup k (s_names s) = Some (v, e) -> (v < length (s_ctrs s))%nat.
Proof.
  intros W SL DL E L. destruct (inv_acts key window threshold slack delay W SL DL (fun _ _ => True) (fun _ => I) (fun _ _ _ _ _ => I) l _ _ _ (fun _ _ _ => I) E (inv_start _ _ _ _ _ _ t)) as [own IV]. apply lookup_in in L. destruct (i_names _ _ _ _ _ _ _ _ IV _ _ _ L) as [[A _] _]. exact A.
Qed.
Lemma call_counts key window threshold slack delay l t s q r f ttl k : (0 <= window)%Z -> (0 <= slack)%Z -> (0 <= delay)%Z -> acts key window threshold slack delay l (start t) = Some s ->
  usable r = Some ttl -> key (f q) = Some k -> count k s + 1 < 2 ^ 64 ->
  exists n s', acts key window threshold slack delay ([AAsk q; AAnswer (length (s_threads s)) r f] ++ repeat (ARun (length (s_threads s))) n) s = Some s' /\
    (exists lg, s_log s' = Returned (length (s_threads s)) r :: lg) /\ s_now s' = s_now s /\ count k s' = count k s + 1 /\
    (exists v, lookup k (s_names s') = Some (v, s_now s + window)%Z) /\
    (threshold <= count k s + 1 -> lookup k (s_queries s') = Some (f q, s_now s + Z.of_N ttl * second)%Z).
Proof.
  intros W SL DL E U K LT. destruct (one_call key window threshold slack delay s q r f ttl k U K (fun v e => reached_wf _ _ _ _ _ _ _ _ _ v e W SL DL E) LT) as (n & s' & A & B & C & D & (v & F & _) & G). exists n, s'. eauto 10.
Qed.

(** Two calls at the same time, and calls that are far apart *)
Definition demo_q : msg := Msg 7 false 0 false false true false false false 0 [Q "a." 1 1] [] [] [].
Definition demo_a : msg := Msg 7 true 0 false false true true false false 0 [Q "a." 1 1] [RR "a." 1 1 300 (DA [10;0;0;1])] [] [].
Definition demo_key (q : msg) : option string := prefetchKey (fun _ => ""%string) q.
Definition same (q : msg) : msg := q.
Definition call (i : nat) : list action := [AAsk demo_q; AAnswer i (Answered demo_a) same; ARun i; ARun i; ARun i; ARun i].
Lemma race : exists s, acts demo_key 100 2 0 0 [AAsk demo_q; AAsk demo_q; AAnswer 0 (Answered demo_a) same; AAnswer 1 (Answered demo_a) same; ARun 0; ARun 1; ARun 0; ARun 1; ARun 0; ARun 1; ARun 0; ARun 1] (start 0) = Some s /\
  counts (s_log s) = [0; 0]%Z /\ s_threads s = [Done; Done] /\ s_queries s = [] /\ exists k, demo_key demo_q = Some k /\ count k s = 1.
Proof. eexists. split; [vm_compute; reflexivity|]. split; [reflexivity|]. split; [reflexivity|]. split; [reflexivity|]. eexists. split; vm_compute; reflexivity. Qed.
Lemma sliding : exists l s k, demo_key demo_q = Some k /\ l = call 0 ++ [ATick 90] ++ call 1 ++ [ATick 180] ++ call 2 ++ [ARun 2; ATick 200; ACallback k; ARun 3; ARun 3] /\
  acts demo_key 100 3 0 0 l (start 0) = Some s /\ counts (s_log s) = [180; 90; 0]%Z /\ prefetches (s_log s) = [(demo_q, 200%Z)].
Proof. eexists. eexists. eexists. split; [vm_compute; reflexivity|]. split; [reflexivity|]. split; [vm_compute; reflexivity|]. split; reflexivity. Qed.
Lemma nib_space n : n < 16 -> Ascii.eqb (nib n) " " = false.
Proof. intros H. destruct (Ascii.eqb_spec (nib n) " ") as [E|]; [|reflexivity]. exfalso. apply (f_equal N_of_ascii) in E. unfold nib in E. rewrite N_ascii_embedding in E by lia. change (N_of_ascii " ") with 32 in E. lia. Qed.
Lemma hex_space a : Forall (fun x => x < 256) a -> contains " " (hex a) = false.
Proof. induction 1 as [|x a X _ IH]; [reflexivity|]. cbn [hex contains]. rewrite !nib_space, IH; [reflexivity|apply N.mod_lt; lia|apply N.div_lt_upper_bound; lia]. Qed.
Lemma prefetch_key_hyps : ip_text_ok hex_ip /\ ip_no_space hex_ip /\ query_ok (rq "a." [ECS 1 24 0 [10; 0; 0; 0]]).
Proof.
  split; [exact hex_ip_ok|]. split.
  - intros a H. unfold hex_ip. cbn [contains]. rewrite hex_space by (apply canon_ok, H). reflexivity.
  - apply rq_ok; [cbn; lia|]. constructor; [|constructor]. split; [reflexivity|]. repeat split; cbn; auto; repeat constructor.
Qed.

Lemma threshold_configured key n w threshold window slack delay l t s k q t1 a b : configured n w threshold window -> (0 <= w)%Z -> (0 <= slack)%Z -> (0 <= delay)%Z ->
  acts key (window_of w) (threshold_of n) slack delay l (start t) = Some s -> s_log s = a ++ Prefetched k q t1 :: b ->
  exists rs, (threshold <= N.of_nat (length rs))%N /\ NoDup (map fst rs) /\ within (window + slack + 2 * delay) t1 rs /\ forall i t', In (i, t') rs -> exists v, In (Counted i k v t') b.
Proof.
  intros C W SL DL E L.
  assert (T : threshold_of n = threshold /\ window_of w = window /\ (0 <= window)%Z).
  { unfold threshold_of, window_of. destruct C as [n w N1 W1|w W1|n N1|].
    - destruct (N.eqb_spec n 0); [easy|]. destruct (Z.eqb_spec w 0); easy.
    - destruct (Z.eqb_spec w 0); easy.
    - destruct (N.eqb_spec n 0); easy.
    - easy. }
  destruct T as (<- & <- & W'). exact (threshold_met key _ _ slack delay l t s k q t1 a b W' SL DL E L).
Qed.
