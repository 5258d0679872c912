(** Proofs about counters: the statements of C93 put together *)
From Coq Require Import Permutation.
From Verif Require Import Base Bytes Dns Net Cidr_model Lists_model Metrics_model Metrics_spec Metrics_proofs Metrics_proofs2 Metrics_proofs3 Metrics_proofs4.
From Verif Require Router_model Dns64_model Groups_proofs.
From Verif Require Import Listener_model.
Local Open Scope string_scope.
Local Open Scope bool_scope.
Local Open Scope nat_scope.

Lemma listener_counts base optlen truncate rCode id protocol nets :
  let bumps := l_bumps base optlen truncate rCode id protocol nets in let run := l_run base optlen truncate id protocol nets in
  let question c := negb (none (m_question (dc_req c))) in
  shows bumps ("query", "") question /\ shows bumps ("error", "noquestion") (fun c => negb (question c)) /\
  shows bumps ("error", "acl") (fun c => question c && negb (called (run c))) /\
  shows bumps ("error", "resolve") (fun c => failed (dc_resolve c) (run c)) /\ shows bumps ("drop", "") (fun c => closed (run c)) /\
  (forall k, shows bumps ("response", k) (fun c => written (fun m => String.eqb k (rCode (m_rcode m))) (run c))) /\
  (forall calls log, Permutation log (flat_map bumps calls) -> named "query" log = named "drop" log + named "response" log + number (fun c => crashed (run c)) calls).
Proof.
  intros bumps run question. split; [apply l_query|]. split.
  { intros calls log P. etransitivity; [exact (l_noquestion _ _ _ _ _ _ _ calls log P)|]. apply number_ext. intros c. symmetry. apply negb_involutive. }
  split; [apply l_acl|]. split; [apply l_resolve|]. split; [apply l_drop|]. split; [intros k; apply l_response|]. apply l_sum.
Qed.
Lemma doh_counts base optlen unpack pack base64dec splitHost parseIP rCode o :
  let bumps := h_bumps base optlen unpack pack base64dec splitHost parseIP rCode o in
  let run := h_run base optlen unpack pack base64dec splitHost parseIP o in
  let message := h_msg base64dec in
  shows bumps ("get", "") (fun c => String.eqb (h_method (hc_req c)) "GET") /\ shows bumps ("post", "") (fun c => String.eqb (h_method (hc_req c)) "POST") /\
  shows bumps ("error", "httpmethod") (fun c => status 405 (run c)) /\ shows bumps ("error", "toolarge") (fun c => status 413 (run c)) /\
  shows bumps ("query", "") (fun c => match message c with Some _ => true | None => false end) /\
  shows bumps ("error", "unpack") (fun c => garbled unpack (message c)) /\ shows bumps ("error", "noquestion") (fun c => empty unpack (message c)) /\
  shows bumps ("error", "tooearly") (fun c => status 425 (run c)) /\ shows bumps ("error", "remoteaddr") (fun c => asks unpack (message c) && status 400 (run c)) /\
  shows bumps ("drop", "") (fun c => status 403 (run c)) /\ shows bumps ("error", "pack") (fun c => status 500 (run c)) /\
  (forall k, shows bumps ("response", k) (fun c => (body (run c) || status 500 (run c)) && String.eqb k (rCode (reply_code (hc_resolve c) (run c))))) /\
  (forall calls log, Permutation log (flat_map bumps calls) ->
     times ("query", "") log = times ("error", "unpack") log + times ("error", "noquestion") log + times ("error", "tooearly") log + times ("error", "remoteaddr") log +
       times ("drop", "") log + named "response" log + number (fun c => crashed (run c)) calls) /\
  shows bumps ("error", "resolve") (fun _ => false) /\ shows bumps ("error", "acl") (fun _ => false).
Proof.
  intros bumps run message. split; [apply h_get|]. split; [apply h_post|]. split; [apply h_httpmethod|]. split; [apply h_toolarge|]. split; [apply h_query|].
  split; [apply h_unpack|]. split; [apply h_noquestion|]. split; [apply h_tooearly|]. split; [apply h_remoteaddr|]. split; [apply h_drop|]. split; [apply h_pack|].
  split; [intros k; apply h_response|]. split; [apply h_sum|]. apply h_silent.
Qed.
Lemma doq_counts unpack pack rCode :
  let bumps := q_bumps unpack pack rCode in let run := q_run unpack pack in let message := q_msg in
  shows bumps ("stream", "") (fun _ => true) /\ shows bumps ("error", "read") (fun c => match message c with None => true | Some _ => false end) /\
  shows bumps ("error", "unpack") (fun c => garbled unpack (message c)) /\ shows bumps ("error", "noquestion") (fun c => empty unpack (message c)) /\
  shows bumps ("query", "") (fun c => asks unpack (message c)) /\
  shows bumps ("error", "encode") (fun c => called (run c) && match snd (run c) with Silent => true | _ => false end) /\
  shows bumps ("error", "send") (fun c => body (run c) && negb (qc_sent c)) /\
  (forall k, shows bumps ("response", k) (fun c => body (run c) && String.eqb k (rCode (reply_code (qc_resolve c) (run c))))) /\
  shows bumps ("error", "keepalive") (fun c => match message c with Some b => match unpack b with Some q => negb (none (m_question q)) && has_keepalive q | None => false end | None => false end) /\
  (forall calls log, Permutation log (flat_map bumps calls) ->
     times ("error", "keepalive") log + times ("error", "tooearly") log = number (fun c => asks unpack (message c) && negb (called (run c))) calls /\
     times ("stream", "") log = times ("error", "read") log + times ("error", "unpack") log + times ("error", "noquestion") log + times ("query", "") log /\
     times ("query", "") log = times ("error", "keepalive") log + times ("error", "tooearly") log + times ("error", "encode") log + named "response" log + number (fun c => crashed (run c)) calls).
Proof.
  intros bumps run message. split; [apply q_stream|]. split; [apply q_read|]. split; [apply q_unpack|]. split; [apply q_noquestion|]. split; [apply q_query|].
  split; [apply q_encode|]. split; [apply q_send|]. split; [intros k; apply q_response|]. split; [apply q_keepalive|].
  intros calls log P. split; [exact (q_refusals _ _ _ _ _ P)|]. exact (q_sum _ _ _ _ _ P).
Qed.
Lemma router_counts name resolve now routes q ci calls r : Router_model.router_resolve resolve now routes q ci = Some (calls, r) ->
  (forall k, times ("route", k) (router_bumps name resolve now routes q ci) = number (fun c => String.eqb k (name (fst c))) calls /\
             times ("failure", k) (router_bumps name resolve now routes q ci) = number (fun c => String.eqb k (name (fst c)) && is_err (resolve (fst c) q ci)) calls) /\
  router_available routes = Z.of_nat (length routes).
Proof. intros E. split; [exact (router_count name resolve now routes q ci calls r E)|apply router_gauge]. Qed.

Import Groups_model Groups_spec.
Lemma rotate_counts name n good l s : exec (fr_step n good) g_init l = Some s ->
  let log := exec_bumps (fr_step n good) (fr_bumps name good) g_init l in
  (forall k, times ("route", k) log = number (fun i => String.eqb k (name i)) (sents l) /\ times ("failure", k) log = number (fun i => String.eqb k (name i)) (blamed (badr good) [] l)) /\
  (forall t i s', 0 < n -> fr_step n good s (Sent t i) = Some s' -> i = times ("failover", "") log mod n).
Proof. intros E log. split; [exact (fr_count name n good l s E)|]. intros t i s' N T. exact (fr_failover name n good l s t i s' N E T). Qed.
Lemma back_counts name n good resetAfter l s : exec (fb_step n good resetAfter) fb_init l = Some s ->
  let log := exec_bumps (fb_step n good resetAfter) (fb_bumps name good resetAfter) fb_init l in
  let available := exec_gauge (fb_step n good resetAfter) (fb_gauge n resetAfter) fb_init l (Z.of_nat n) in
  (forall k, times ("route", k) log = number (fun i => String.eqb k (name i)) (sents l) /\ times ("failure", k) log = number (fun i => String.eqb k (name i)) (blamed (badr good) [] l)) /\
  (resetAfter <> 0%Z -> 0 < n -> forall t i s', fb_step n good resetAfter s (Sent t i) = Some s' -> available = (Z.of_nat n - Z.of_nat i)%Z /\ i < n) /\
  (resetAfter = 0%Z -> available = Z.of_nat n /\ times ("failover", "") log = 0).
Proof.
  intros E log available. split; [exact (fb_count name n good resetAfter l s E)|]. split.
  - intros R N t i s' T. exact (fb_available n good resetAfter l s t i s' N R E T).
  - intros R. exact (proj2 (fb_noreset name n good resetAfter l R fb_init s (Z.of_nat n) E eq_refl)).
Qed.
Lemma random_counts name good resolvers l s : exec (rnd_step good) (rnd_init resolvers) l = Some s ->
  let log := exec_bumps (rnd_step good) (rnd_bumps name good) (rnd_init resolvers) l in
  let available := exec_gauge (rnd_step good) rnd_gauge (rnd_init resolvers) l (Z.of_nat (length resolvers)) in
  (forall k, times ("route", k) log = number (fun i => String.eqb k (name i)) (sents l) /\ times ("failure", k) log = number (fun i => String.eqb k (name i)) (blamed (badr good) [] l)) /\
  times ("failover", "") log = length (sents l) + dead_ends l /\ (Z.of_nat (length (r_active s)) <= available)%Z.
Proof.
  intros E log available. split; [exact (rnd_count name good resolvers l s E)|]. split; [exact (rnd_picks name good l _ s E)|].
  apply (rnd_gauge_gen good l (rnd_init resolvers) s); [apply Z.le_refl|exact E].
Qed.
Lemma exec_gauge_app {S} (step : S -> gevent -> option S) gauge l1 : forall s s1 l2 z, exec step s l1 = Some s1 ->
  exec_gauge step gauge s (l1 ++ l2)%list z = exec_gauge step gauge s1 l2 (exec_gauge step gauge s l1 z).
Proof.
  induction l1 as [|e l1 IH]; intros s s1 l2 z E; cbn [exec app exec_gauge] in *; [injection E as <-; reflexivity|].
  destruct (step s e) as [s'|]; [|discriminate]. apply (IH s' s1 l2 _ E).
Qed.
Lemma random_gauge good resolvers l e s : exec (rnd_step good) (rnd_init resolvers) (l ++ [e])%list = Some s ->
  (match e with Sent _ _ | NoneLeft _ | Reactivate _ => True | _ => False end) ->
  exec_gauge (rnd_step good) rnd_gauge (rnd_init resolvers) (l ++ [e])%list (Z.of_nat (length resolvers)) = Z.of_nat (length (r_active s)).
Proof.
  intros E M. rewrite Groups_proofs.exec_app in E. destruct (exec (rnd_step good) (rnd_init resolvers) l) as [s1|] eqn:E1; [|discriminate].
  rewrite (exec_gauge_app _ _ _ _ _ _ _ E1). cbn [exec exec_gauge] in *. destruct (rnd_step good s1 e) as [s2|] eqn:T; [|discriminate]. injection E as <-.
  exact (rnd_exact good l e s1 s2 resolvers _ E1 T M).
Qed.
Lemma names_distinct c1 id1 c2 id2 k1 b1 i1 n1 k2 b2 i2 n2 :
  In (k1, b1, i1, n1) (vars c1 id1) -> In (k2, b2, i2, n2) (vars c2 id2) -> fullname b1 i1 n1 = fullname b2 i2 n2 ->
  b1 = b2 /\ n1 = n2 /\ k1 = k2 /\ (c1 <> CRedis -> c2 <> CRedis -> id1 = id2).
Proof.
  intros V1 V2 E. destruct (vars_distinct _ _ _ _ _ _ _ _ _ _ _ _ V1 V2 E) as (-> & I & -> & ->). repeat split. intros C1 C2.
  rewrite <- (vars_id _ _ _ _ _ _ C1 V1), <- (vars_id _ _ _ _ _ _ C2 V2). exact I.
Qed.
Definition anything (r : result) : bool := match r with Err _ => false | _ => true end.
Lemma gauge_stale : ~ forall good resolvers l s, exec (rnd_step good) (rnd_init resolvers) l = Some s ->
  exec_gauge (rnd_step good) rnd_gauge (rnd_init resolvers) l (Z.of_nat (length resolvers)) = Z.of_nat (length (r_active s)).
Proof. intros H. specialize (H anything [0] [Call 0; Sent 0 0; Reply 0 (Err ""); Failed 0] _ eq_refl). discriminate H. Qed.
Lemma failover_counts_picks : ~ forall name good resolvers l s, exec (rnd_step good) (rnd_init resolvers) l = Some s ->
  times ("failover", "") (exec_bumps (rnd_step good) (rnd_bumps name good) (rnd_init resolvers) l) <= length (failures l).
Proof. intros H. specialize (H (fun _ => "") anything [0] [Call 0; Sent 0 0; Reply 0 Drop] _ eq_refl). cbv in H. lia. Qed.
Lemma d64_no_sum : ~ forall prefixes resolve q, m_question q <> [] ->
  let l := dns64_bumps prefixes resolve q in times ("passthru", "") l + times ("err", "") l + times ("synth", "") l = 1.
Proof. intros H. specialize (H [] (fun _ => Drop) (set_question [Q "x." 28 1] empty_msg) ltac:(discriminate)). discriminate H. Qed.
Lemma vars_published c id m k : (exists b i n, In (k, b, i, n) (vars c id) /\ m = fullname b i n) <-> published c id m k.
Proof.
  split.
  - intros (b & i & n & H & ->); destruct c; cbn [vars In] in H;
      repeat (destruct H as [H|H]; [injection H as <- <- <- <-; eexists; split; [|reflexivity]; cbv [map_counter int_counter talks is_listener is_group]; intuition congruence|]); destruct H.
  - intros (n & H & ->); destruct k; cbv [map_counter int_counter talks is_listener is_group] in H; destruct c; cbn [vars In family is_group];
      repeat match goal with H : _ /\ _ |- _ => destruct H | H : _ \/ _ |- _ => destruct H | H : _ = _ :> bool |- _ => discriminate H | H : _ = _ :> counted |- _ => first [discriminate H | clear H] end; subst n;
      do 3 eexists; (split; [|unfold fullname; reflexivity]); intuition congruence.
Qed.
Lemma published_ok l r0 r : foreign r0 -> construct l r0 = Some r ->
  forall m k, lookup m r = Some k <-> lookup m r0 = Some k \/ exists c id, In (c, id) l /\ published c id m k.
Proof.
  intros F C m k; destruct (construct_ok l r0 F) as (r' & C' & K & V & O); rewrite C in C'; injection C' as <-.
  split.
  - intros L; destruct (O m k L) as [L0|(c & id & b & i & n & I & J & E)]; [left; exact L0|right].
    exists c, id; split; [exact I|]; apply vars_published; eauto.
  - intros [L0|(c & id & I & P)]; [apply K, L0|]; apply vars_published in P; destruct P as (b & i & n & J & ->); eapply V; eauto.
Qed.
