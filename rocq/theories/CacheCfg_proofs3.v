(** Proofs about CacheCfg_model.v: what the settings do *)
From Verif Require Import Base Bytes Dns Lru_model Lru_spec Lru_proofs Blob_model Blob_spec Cache_model Cache_spec Cache_proofs Cache_proofs2 Cache_proofs3 Cache_proofs5 CacheCfg_model CacheCfg_spec CacheCfg_proofs CacheCfg_proofs2.
From Verif Require Router_spec Router_proofs Shuffle_spec Shuffle_proofs Logs_model Logs_spec Logs_proofs Prefetch_model Prefetch_spec Prefetch_proofs2 Lua_model Lua_spec Lua_proofs
  Keystore_model Anchor_model Anchor_spec Anchor_proofs Dnssec_model Dnssec_spec Dnssec_main ListCfg_model.
From Coq Require Import Permutation ZifyBool ZifyNat ZifyN.
Local Open Scope N_scope.

Section W.
Context {R : Type}.
Variable w : world R.

Lemma shuffled_fun g sh choices reads m : shuffle_of (c_shuffle g) = Some sh -> shuffles m (shuffle_fun sh choices reads m) (c_shuffle g).
Proof.
  unfold shuffle_of. destruct (String.eqb_spec (c_shuffle g) "") as [->|_]; [intros H; injection H as <-; constructor; reflexivity|].
  destruct (String.eqb_spec (c_shuffle g) "random") as [->|_]; [intros H; injection H as <-; constructor; apply Shuffle_proofs.random_shuffled|].
  destruct (String.eqb_spec (c_shuffle g) "round-robin") as [->|_]; [intros H; injection H as <-; constructor; apply Shuffle_proofs.roundrobin_shuffled|discriminate].
Qed.
Lemma shuffles_ttls m r s : shuffles m r s -> ttls_ok m -> ttls_ok r.
Proof.
  assert (G : Shuffle_spec.shuffled m r -> ttls_ok m -> ttls_ok r).
  { intros (E & P & _) T. unfold ttls_ok in *. rewrite E. cbn [m_answer m_ns m_extra set_answer]. rewrite !Forall_app in *. destruct T as (A & B & C).
    split; [|split; assumption]. rewrite Forall_forall in *. intros x Hx. apply A. apply (Permutation_in x (Permutation_sym P)). exact Hx. }
  intros S T. inversion S; subst; auto.
Qed.
Lemma aged_ttls q t0 now a r : aged_msg q t0 now a r -> ttls_ok a -> ttls_ok r.
Proof.
  intros (_ & _ & _ & _ & _ & _ & _ & _ & _ & _ & _ & A & B & C) T. unfold ttls_ok in *.
  assert (G : forall l l', Forall2 (aged_rr (elapsed t0 now)) l l' -> Forall (fun r => rr_ttl r <= max_ttl) l -> Forall (fun r => rr_ttl r <= max_ttl) l').
  { induction 1 as [|x x' l l' H HF IH]; [constructor|]. intros F. inversion F; subst. constructor; [|auto].
    unfold aged_rr in H. destruct (is_opt x); [subst; assumption|]. destruct H as (_ & H & _). unfold elapsed in H. lia. }
  rewrite !Forall_app in *. destruct T as (T1 & T2 & T3). split; [|split]; eapply G; eauto.
Qed.
Lemma source_from g m pack l q now a r pf : codes (c_rcodeMax g) (fun _ => None) = Some m -> source pack (opts g m) l q now a r pf ->
  comes_from g pack l q now a r /\ (pf = true <-> eligible g a) /\ ttls_ok r /\ m_rcode r = m_rcode a.
Proof.
  intros C (l1 & e & l2 & q0 & t0 & n & El & Ar & Sq & Lt & Nw & Ag & Lat & Pf & T). split; [|split; [exact Pf|split; [eapply aged_ttls; eauto|apply Ag]]].
  exists l1, e, l2, q0, t0, n. split; [exact El|]. split; [exact Ar|]. split; [exact Sq|]. split; [apply (lifetime_kept g m); assumption|]. split; [exact Nw|]. split; [exact Ag|].
  intros e' q' t' a' I' A' (n' & K') P'. apply (Lat e' q' t' a' I' A'); [|exact P']. exact (kept_some g m a' n' C K').
Qed.
Lemma flush_is g m q : flush_query (opts g m) q <-> flushes g q.
Proof. reflexivity. Qed.

Lemma effect_is g m pf r : small g -> ttls_ok r -> forall min, effect_of (opts g m) pf r = Prefetched min <-> pf = true /\ smallest (records r) = Some min /\ min < c_trigger g.
Proof.
  intros (_ & _ & Tr) T min. unfold effect_of. cbn [o_trigger opts]. rewrite (minTTL_spec r T). destruct pf; cbn [andb]; [|split; [discriminate|intros (A & _); discriminate]].
  destruct (N.ltb_spec 0 (c_trigger g)) as [Pos|Zero]; [|split; [discriminate|intros (_ & _ & A); lia]].
  destruct (smallest (records r)) as [n|] eqn:S; [|split; [discriminate|intros (_ & A & _); discriminate]].
  assert (B : forall n, smallest (records r) = Some n -> n <= max_ttl).
  { intros n0 S0. revert S0. unfold ttls_ok in T. unfold records. remember (m_answer r ++ m_ns r ++ m_extra r) as L. clear HeqL S. revert n0. induction L as [|x L IH]; intros n0; [discriminate|]. inversion T; subst.
    cbn [filter]. destruct (negb (is_opt x)); [|apply IH; assumption]. cbn [smallest]. destruct (smallest (filter _ L)) as [k|].
    - intros E. injection E as <-. lia.
    - intros E. injection E as <-. assumption. }
  destruct (N.eqb_spec n max_ttl) as [E|Ne].
  - cbn [negb andb]. split; [discriminate|]. intros (_ & A & L). injection A as <-. unfold max_ttl, Cache_model.MaxUint32 in *. lia.
  - cbn [negb andb]. destruct (N.ltb_spec n (c_trigger g)) as [L|L]; split.
    + intros A. injection A as <-. auto.
    + intros (_ & A & _). injection A as <-. reflexivity.
    + discriminate.
    + intros (_ & A & L'). injection A as <-. lia.
Qed.

Lemma cfg_served g e ipString pack unpack hash l c choices reads q now c' r eff :
  made w "cache" g = Some e -> in_memory g -> small g -> ip_text_ok ipString -> Forall event_ok l -> faithful pack unpack l -> query_ok q ->
  cacheRuns R e ipString pack unpack hash l = Some c -> cacheAsk R e ipString unpack hash choices reads q now c = Some (c', Some (r, eff)) ->
  (flushes g q /\ r = set_reply empty_msg q /\ eff = Flushed /\ forall q' t, query_ok q' -> peek ipString unpack hash c' q' t = None) \/
  (~ flushes g q /\ exists a r0, comes_from g pack l q now a r0 /\ shuffles r0 r (c_shuffle g) /\ eff <> Flushed /\
     forall min, eff = Prefetched min <-> eligible g a /\ smallest (records r) = Some min /\ min < c_trigger g) \/
  (~ flushes g q /\ c_harden g = true /\ r = nxdomain q /\ eff = FromCache /\
     exists x t p a r0, m_question q = x :: t /\ dot_ancestor p (q_name x) /\ comes_from g pack l (with_name q p) now a r0 /\ m_rcode a = RcodeNameError).
Proof.
  intros H M Sm Ip Hl Hf Hq Run Ask. destruct (made_memory w g e H M) as (up & sh & m & gc & file & save & O & Sh & C & ->). cbn [cacheRuns cacheAsk] in Run, Ask.
  pose proof (opts_are_ok g m Sm C) as Ok.
  destruct (lookup_full ipString pack unpack hash Ip (opts g m) _ l c _ q now c' r eff Hl Hq Run Ask) as [(A & B & C1 & D)|[(A & r0 & pf & Pk & -> & ->)|(A & Hh & -> & -> & x & t & p & a0 & pf & Ex & Dp & Pk & Rc)]].
  - left. auto.
  - right. left. split; [exact A|]. destruct (peek_from ipString pack unpack hash Ip (opts g m) _ l c q now r0 pf Ok Hl Hf Hq Run Pk) as (a & Src).
    destruct (source_from g m pack l q now a r0 pf C Src) as (Cf & El & T & _). exists a, r0. split; [exact Cf|]. pose proof (shuffled_fun g sh choices reads r0 Sh) as S. split; [exact S|]. split.
    + unfold effect_of. destruct (pf && (0 <? o_trigger (opts g m))); [|discriminate]. destruct (minTTL _) as [mn ok]. destruct (ok && (mn <? o_trigger (opts g m))); discriminate.
    + intros min. rewrite (effect_is g m pf _ Sm (shuffles_ttls _ _ _ S T) min). rewrite El. reflexivity.
  - right. right. split; [exact A|]. split; [exact Hh|]. split; [reflexivity|]. split; [reflexivity|].
    assert (Hq' : query_ok (with_name q p)).
    { apply with_name_ok; [exact Hq|]. destruct Hq as (_ & Hqf & _). rewrite Ex in Hqf. inversion Hqf as [|? ? (_ & _ & L2) _]; subst.
      destruct Dp as ((pre & E) & _). rewrite E in L2. assert (Ln : String.length (pre ++ "." ++ p) = (String.length pre + S (String.length p))%nat) by (clear; induction pre; cbn in *; [reflexivity|rewrite IHpre; reflexivity]).
      rewrite Ln in L2. lia. }
    destruct (peek_from ipString pack unpack hash Ip (opts g m) _ l c _ now a0 pf Ok Hl Hf Hq' Run Pk) as (a & Src).
    destruct (source_from g m pack l _ now a a0 pf C Src) as (Cf & El & T & Rc'). exists x, t, p, a, a0. rewrite <- Rc'. auto.
Qed.

Lemma cfg_kept g e ipString pack unpack hash l ev c q0 t0 a n b q now r0 choices reads :
  made w "cache" g = Some e -> in_memory g -> small g -> unambiguous g -> ip_text_ok ipString -> Forall event_ok (l ++ [ev]) ->
  cacheRuns R e ipString pack unpack hash (l ++ [ev]) = Some c ->
  arrival ev = Some (q0, t0, a) -> kept g a n -> pack a = Some b -> unpack b = Some a ->
  query_ok q -> same_question q0 q -> (now <= t0 + Z.of_N n * a_second)%Z -> aged_msg q t0 now a r0 -> ~ flushes g q ->
  exists c' r eff, cacheAsk R e ipString unpack hash choices reads q now c = Some (c', Some (r, eff)) /\ shuffles r0 r (c_shuffle g).
Proof.
  intros H M Sm U Ip Hl Run Ar K P Un Hq Sq Nw Ag NF. destruct (made_memory w g e H M) as (up & sh & m & gc & file & save & O & Sh & C & ->). cbn [cacheRuns cacheAsk] in *.
  pose proof (opts_are_ok g m Sm C) as Ok.
  destruct (fresh_answer_served ipString pack unpack hash (opts g m) _ l c ev q0 t0 a n b q now r0 Ip Ok Hl Run Ar (kept_lifetime g m a n C U K) P Un Hq Sq Nw Ag) as (pf & Pk).
  destruct (lookup_cases ipString pack unpack hash Ip (opts g m) _ _ c (shuffle_fun sh choices reads) q now Hl Hq Run) as (c' & r & E & Cs).
  assert (G : forall x, (exists a0 pf0, peek ipString unpack hash c q now = Some (a0, pf0) /\ x = shuffle_fun sh choices reads a0) -> shuffles r0 x (c_shuffle g)).
  { intros x (a0 & pf0 & Pk' & ->). rewrite Pk in Pk'. injection Pk' as <- <-. apply shuffled_fun. exact Sh. }
  destruct r as [[x eff]|].
  - exists c', x, eff. split; [exact E|]. destruct eff as [| |mn].
    + exfalso. apply NF. exact (proj1 Cs).
    + destruct Cs as (_ & [Cs|(y & t & _ & No & _)]); [apply G; exact Cs|congruence].
    + destruct Cs as (_ & [Cs|(y & t & _ & No & _)]); [apply G; exact Cs|congruence].
  - destruct Cs as (_ & No & _). congruence.
Qed.

Lemma cfg_capacity g e ipString pack unpack hash l c : made w "cache" g = Some e -> in_memory g -> ip_text_ok ipString -> Forall event_ok l ->
  cacheRuns R e ipString pack unpack hash l = Some c -> (0 < capacity g)%Z -> (Z.of_nat (size bytes c) <= capacity g)%Z.
Proof.
  intros H M Ip Hl Run Cp. destruct (made_memory w g e H M) as (up & sh & m & gc & file & save & O & Sh & C & ->). cbn [cacheRuns] in Run.
  exact (size_bounded ipString pack unpack hash Ip (opts g m) _ l c Hl Run Cp).
Qed.
Lemma cfg_total g e ipString pack unpack hash l choices reads q now : made w "cache" g = Some e -> in_memory g -> ip_text_ok ipString -> Forall event_ok l -> query_ok q ->
  exists c c' r, cacheRuns R e ipString pack unpack hash l = Some c /\ cacheAsk R e ipString unpack hash choices reads q now c = Some (c', r).
Proof.
  intros H M Ip Hl Hq. destruct (made_memory w g e H M) as (up & sh & m & gc & file & save & O & Sh & C & ->). cbn [cacheRuns cacheAsk].
  exact (cache_never_panics ipString pack unpack hash (opts g m) _ l _ q now Ip Hl Hq).
Qed.

Lemma seconds_ns n : short n -> ListCfg_model.seconds n = ns n.
Proof. unfold short, ListCfg_model.seconds, ns. intros H. rewrite Z.mod_small by lia. lia. Qed.
Lemma millis_ns n : short_ms n -> n <> (-1)%Z -> backoff n = (n * 1000000)%Z.
Proof. unfold short_ms, backoff, millis. intros H Ne. destruct (Z.eqb_spec n (-1)); [lia|]. rewrite Z.mod_small by lia. lia. Qed.
Lemma wait_is n : short_ms n -> wait n (backoff n).
Proof. intros H. destruct (Z.eq_dec n (-1)) as [->|Ne]; [left; split; reflexivity|right; split; [exact Ne|exact (millis_ns n H Ne)]]. Qed.
Lemma period_is n : short n -> period n (if Z.eqb (ListCfg_model.seconds n) 0 then 60000000000%Z else ListCfg_model.seconds n).
Proof.
  intros H. rewrite (seconds_ns n H). unfold period, ns. destruct (Z.eqb_spec (n * 1000000000) 0); [left|right]; split; lia.
Qed.
Lemma cfg_memory g e : made w "cache" g = Some e -> in_memory g -> short (gc_seconds g) -> exists up o sh gc file save, only w g up /\ e = ECache R up o sh (Memory (capacity g) gc file save) /\
  period (gc_seconds g) gc /\ (c_backend g = None -> file = ""%string) /\ (forall b, c_backend g = Some b -> short (b_saveInterval b) -> file = b_filename b /\ save = ns (b_saveInterval b)).
Proof.
  intros H M Sg. destruct (made_cache w g e H) as (up & sh & m & st & O & S & C & -> & B). unfold capacity, gc_seconds in *. destruct M as [N|(b & E & T)].
  - rewrite N in *. subst st. do 6 eexists. split; [exact O|]. split; [reflexivity|]. split; [apply period_is; exact Sg|]. split; [reflexivity|]. intros b E. discriminate.
  - rewrite E in *. unfold backend_of in B. rewrite T in B. cbn [String.eqb Ascii.eqb Bool.eqb] in B. injection B as <-. do 6 eexists. split; [exact O|]. split; [reflexivity|].
    split; [apply period_is; exact Sg|]. split; [discriminate|]. intros b0 E0 Ss. injection E0 as <-. split; [reflexivity|apply seconds_ns; exact Ss].
Qed.
Lemma cfg_redis g e b : made w "cache" g = Some e -> c_backend g = Some b -> b_type b = "redis"%string -> short_ms (b_minBackoff b) -> short_ms (b_maxBackoff b) ->
  exists up o sh lo hi, only w g up /\ wait (b_minBackoff b) lo /\ wait (b_maxBackoff b) hi /\
    e = ECache R up o sh (Redis (RedisOpts (b_network b) (b_address b) (b_username b) (b_password b) (b_db b) (b_maxRetries b) lo hi (b_keyPrefix b) (b_syncSet b))).
Proof.
  intros H E T L1 L2. destruct (made_cache w g e H) as (up & sh & m & st & O & S & C & -> & B). rewrite E in B. unfold backend_of in B. rewrite T in B. cbn [String.eqb Ascii.eqb Bool.eqb] in B. injection B as <-.
  do 5 eexists. split; [exact O|]. split; [apply wait_is; exact L1|]. split; [apply wait_is; exact L2|]. reflexivity.
Qed.

Notation lookups := (lookup_all R (w_resolvers w)).
Ltac open := unfold made, make; let gr := fresh "gr" in let L := fresh "L" in destruct (lookups (c_resolvers _)) as [gr|] eqn:L; [|discriminate]; cbn [String.eqb Ascii.eqb Bool.eqb].
Ltac single := open; intros H; apply one_some in H; destruct H as (up & -> & H); match goal with L : _ = Some [up] |- _ => apply lookup_only in L end.

Lemma cfg_prefetch g e : made w "prefetch" g = Some e -> (0 <= p_window g)%Z -> exists up window threshold names, only w g up /\ e = EPrefetching R up window threshold names (p_maxItems g) /\
  (p_cacheSize g <> 0%Z -> names = p_cacheSize g) /\ (p_cacheSize g = 0%Z -> names = (3 * p_maxItems g)%Z) /\
  exists times span, Prefetch_spec.configured (p_threshold g) (p_window g) times span /\
  forall key slack delay l t s k q t1 a b, (0 <= slack)%Z -> (0 <= delay)%Z ->
    Prefetch_model.acts key window threshold slack delay l (Prefetch_model.start t) = Some s -> Prefetch_model.s_log s = a ++ Prefetch_model.Prefetched k q t1 :: b ->
    exists rs, times <= N.of_nat (length rs) /\ NoDup (map fst rs) /\ Prefetch_spec.within (span + slack + 2 * delay) t1 rs /\ forall i t', In (i, t') rs -> exists v, In (Prefetch_model.Counted i k v t') b.
Proof.
  single. injection H as <-. intros Pw. unfold newPrefetch. do 4 eexists. split; [exact L|]. split; [reflexivity|]. split.
  { intros Ne. destruct (Z.eqb_spec (p_cacheSize g) 0); [contradiction|reflexivity]. }
  split; [intros E0; rewrite E0; cbn [Z.eqb]; lia|].
  assert (X : exists times span, Prefetch_spec.configured (p_threshold g) (p_window g) times span).
  { destruct (N.eq_dec (p_threshold g) 0) as [->|N1]; destruct (Z.eq_dec (p_window g) 0) as [->|N2]; do 2 eexists; try (constructor; assumption); try constructor. }
  destruct X as (times & span & X). exists times, span. split; [exact X|]. intros. eapply Prefetch_proofs2.threshold_configured; eauto.
Qed.

Lemma priority_is word p : priority_of word = Some p <-> severity word p.
Proof.
  unfold priority_of. split.
  - repeat match goal with |- context[String.eqb word ?s] => destruct (String.eqb_spec word s) as [->|?]; cbn [orb]; [intros E; injection E as <-; constructor|] end. discriminate.
  - intros H. inversion H; subst; reflexivity.
Qed.
Lemma cfg_syslog g e : made w "syslog" g = Some e -> exists up p opt, only w g up /\ severity (y_priority g) p /\ e = ESyslog R up (y_network g) (y_address g) p (y_tag g) opt /\
  forall (answer : msg -> client -> result) q ci x rest, m_question q = x :: rest ->
    Logs_model.syslog_resolve false opt answer q ci = Some ([Logs_model.Call q ci], answer q ci) /\
    exists lines, Logs_model.syslog_resolve true opt answer q ci =
      Some ((if y_request g then [Logs_model.Write (Logs_model.LQuery (m_id q) (ci_ip ci) (q_type x) (q_name x))] else []) ++ [Logs_model.Call q ci] ++ map Logs_model.Write lines, answer q ci) /\
    Logs_spec.reported (Logs_model.SyslogOpts (y_request g) (y_response g) (y_verbose g)) q x (answer q ci) lines.
Proof.
  single. apply opt_some in H. destruct H as (p & H & ->). exists up, p, (Logs_model.SyslogOpts (y_request g) (y_response g) (y_verbose g)). split; [exact L|]. split; [apply priority_is; exact H|]. split; [reflexivity|].
  intros answer q ci x rest Ex. split; [apply Logs_proofs.syslog_down|]. exact (Logs_proofs.syslog_spec (Logs_model.SyslogOpts (y_request g) (y_response g) (y_verbose g)) answer q ci x rest Ex).
Qed.
Lemma querylog_is up g e : newQueryLog R (w_append w) up g = Some e <-> exists file f, e = EQueryLog R up file f /\ format (f_format g) f /\
  ((f_file g = ""%string /\ file = None) \/ (f_file g <> ""%string /\ file = Some (f_file g) /\ w_append w (f_file g) = true)).
Proof.
  unfold newQueryLog. split.
  - intros H.
    assert (X : exists file, ((f_file g = ""%string /\ file = None) \/ (f_file g <> ""%string /\ file = Some (f_file g) /\ w_append w (f_file g) = true)) /\
       (if String.eqb (f_format g) "" || String.eqb (f_format g) "text" then Some (EQueryLog R up file TextLog) else if String.eqb (f_format g) "json" then Some (EQueryLog R up file JSONLog) else None) = Some e).
    { destruct (String.eqb_spec (f_file g) "") as [Ef|Ef]; cbn [negb andb] in H; [exists None; auto|]. destruct (w_append w (f_file g)) eqn:A; cbn [negb] in H; [|discriminate]. exists (Some (f_file g)). auto. }
    destruct X as (file & F & X). exists file. destruct (String.eqb_spec (f_format g) "") as [->|N1]; cbn [orb] in X; [injection X as <-; exists TextLog; repeat split; [constructor|exact F]|].
    destruct (String.eqb_spec (f_format g) "text") as [->|N2]; [injection X as <-; exists TextLog; repeat split; [constructor|exact F]|].
    destruct (String.eqb_spec (f_format g) "json") as [->|N3]; [injection X as <-; exists JSONLog; repeat split; [constructor|exact F]|discriminate].
  - intros (file & f & -> & Ff & [(Ef & ->)|(Ef & -> & A)]).
    + rewrite Ef. cbn. inversion Ff; reflexivity.
    + apply String.eqb_neq in Ef. rewrite Ef, A. cbn [negb andb]. inversion Ff; reflexivity.
Qed.
Lemma cfg_querylog g e : made w "query-log" g = Some e -> exists up file f, only w g up /\ e = EQueryLog R up file f /\ format (f_format g) f /\
  ((f_file g = ""%string /\ file = None) \/ (f_file g <> ""%string /\ file = Some (f_file g) /\ w_append w (f_file g) = true)).
Proof. single. apply querylog_is in H. destruct H as (file & f & -> & A & B). exists up, file, f. auto. Qed.

Lemma lua_is gr g e : newLua R (w_file w) (w_compile w) (w_first w) gr g = Some e <-> exists s, script_of w g s /\ s <> ""%string /\ w_compile w s = true /\ w_first w s (l_noSandbox g) = true /\
  e = ELua R gr s (l_noSandbox g) (Lua_model.newPool (l_concurrency g)).
Proof.
  unfold newLua, script_of. split.
  - intros H. assert (X : exists s, ((l_source g = ""%string /\ s = l_script g) \/ (l_source g <> ""%string /\ w_file w (l_source g) = Some s)) /\
      (if String.eqb s "" then None else if negb (w_compile w s) then None else if negb (w_first w s (l_noSandbox g)) then None else Some (ELua R gr s (l_noSandbox g) (Lua_model.newPool (l_concurrency g)))) = Some e).
    { destruct (String.eqb_spec (l_source g) "") as [E|E]; [exists (l_script g); auto|]. destruct (w_file w (l_source g)) as [s|]; [|discriminate]. exists s. auto. }
    destruct X as (s & S & X). exists s. split; [exact S|]. destruct (String.eqb_spec s "") as [|N1]; [discriminate|]. destruct (w_compile w s); [|discriminate]. destruct (w_first w s (l_noSandbox g)); [|discriminate].
    injection X as <-. auto.
  - intros (s & S & N1 & A & B & ->). apply String.eqb_neq in N1. destruct S as [(E & ->)|(E & F)].
    + rewrite E. cbn [String.eqb]. rewrite N1, A, B. reflexivity.
    + apply String.eqb_neq in E. rewrite E, F, N1, A, B. reflexivity.
Qed.
Lemma cfg_lua g e : made w "lua" g = Some e -> exists gr s pool n, several w g gr /\ script_of w g s /\ e = ELua R gr s (l_noSandbox g) pool /\ Lua_spec.pool_size (l_concurrency g) n /\
  forall l p, Lua_model.pruns pool l = Some p ->
    NoDup (map snd (Lua_model.p_used p)) /\ (length (Lua_model.p_used p) <= n)%nat /\
    (forall r, Lua_model.p_closed p = false -> (Lua_model.pstep p (Lua_model.Take r) = None <-> length (Lua_model.p_used p) = n)).
Proof.
  open. intros H. apply lua_is in H. destruct H as (s & S & N1 & A & B & ->). apply lookup_several in L.
  assert (X : exists n, Lua_spec.pool_size (l_concurrency g) n).
  { unfold Lua_spec.pool_size. destruct (Nat.eq_dec (l_concurrency g) 0) as [->|Ne]; [exists 4%nat; split; [reflexivity|congruence]|exists (l_concurrency g); split; [congruence|reflexivity]]. }
  destruct X as (n & X). exists gr, s, (Lua_model.newPool (l_concurrency g)), n. split; [exact L|]. split; [exact S|]. split; [reflexivity|]. split; [exact X|]. intros l p Pr.
  destruct (Lua_proofs.sized_exclusive _ n l p X Pr) as (U & _ & Le). split; [exact U|]. split; [exact Le|]. intros r Cl. exact (Lua_proofs.sized_waits _ n l p r X Pr Cl).
Qed.

Lemma cfg_validator g e get unmarshal verify keyTag toDS hashName now qs : made w "dnssec-validator" g = Some e -> (0 <= now)%Z ->
  exists anchors st0, Anchor_spec.to_use get unmarshal now (d_url g) Anchor_spec.iana_root (d_anchors g) anchors /\
  validatorRuns R e get unmarshal verify keyTag toDS hashName now qs = Some st0 /\
  forall W st i q m, Dnssec_model.steps W st0 st -> nth_error qs i = Some q -> nth_error (Dnssec_model.s_threads st) i = Some (Dnssec_model.Ret (Ans m)) ->
  exists qu a, List.head (m_question q) = Some qu /\ W (Dnssec_model.upstream_query q) (Ans a) /\
    (Dnssec_spec.message_ok a -> Dnssec_spec.verdict verify keyTag toDS hashName anchors (fun x => Dnssec_model.stripDNSSEC x (Dnssec_model.set_do q) (Dnssec_model.had_edns0 q) (q_type qu)) (d_logOnly g) q a (Dnssec_model.s_time st) (Ans m)).
Proof.
  single. injection H as <-. intros Nn. exists (Anchor_model.chooseAnchors get unmarshal now (d_anchors g) (d_url g)). eexists. split; [apply Anchor_proofs.choose_iff; reflexivity|]. split; [reflexivity|].
  intros W st i q m St Q Th. unfold Anchor_model.newValidator in St. eapply Dnssec_main.resolve_run; eauto.
Qed.
(** ** Starting *)
Lemma map_ok {A B} (f : A -> B) o : option_map f o <> None <-> o <> None.
Proof. destruct o; cbn; split; congruence. Qed.
Lemma one_ok g gr f (P : Prop) : lookups (c_resolvers g) = Some gr -> (forall up, f up <> None <-> P) -> (one R gr f <> None <-> (exists r, only w g r) /\ P).
Proof.
  intros L F. split.
  - intros H. destruct (one R gr f) eqn:E; [|contradiction]. apply one_some in E. destruct E as (up & -> & E). split; [exists up; apply lookup_only; exact L|]. apply (F up). congruence.
  - intros ((r & O) & HP). apply lookup_only in O. rewrite O in L. injection L as <-. cbn [one]. apply (F r). exact HP.
Qed.
Lemma some_iff {A} (o : option A) : o <> None <-> exists x, o = Some x.
Proof. destruct o as [x|]; split; [intros _; exists x; reflexivity|discriminate|congruence|intros (x & H); discriminate]. Qed.
Lemma shuffle_ok word : shuffle_of word <> None <-> In word [""; "random"; "round-robin"]%string.
Proof.
  unfold shuffle_of. cbn [In]. destruct (String.eqb_spec word "") as [->|N1]; [split; [auto|discriminate]|]. destruct (String.eqb_spec word "random") as [->|N2]; [split; [auto|discriminate]|].
  destruct (String.eqb_spec word "round-robin") as [->|N3]; [split; [auto|discriminate]|]. split; [congruence|]. intros [E|[E|[E|[]]]]; congruence.
Qed.
Lemma backend_ok b : backend_of b <> None <-> In (b_type b) ["memory"; "redis"]%string.
Proof.
  unfold backend_of. cbn [In]. destruct (String.eqb_spec (b_type b) "memory") as [->|N1]; [split; [auto|discriminate]|]. destruct (String.eqb_spec (b_type b) "redis") as [->|N2]; [split; [auto|discriminate]|].
  split; [congruence|]. intros [E|[E|[]]]; congruence.
Qed.
Lemma cache_ok up g : newCache R up g <> None <-> In (c_shuffle g) [""; "random"; "round-robin"]%string /\ Forall (fun kv => known_code (fst kv)) (c_rcodeMax g) /\
  (forall b, c_backend g = Some b -> In (b_type b) ["memory"; "redis"]%string).
Proof.
  rewrite <- shuffle_ok, <- (codes_some _ (fun _ => None)). unfold newCache. destruct (shuffle_of (c_shuffle g)) as [sh|]; [|split; [congruence|tauto]]. destruct (codes (c_rcodeMax g) (fun _ => None)) as [m|]; [|split; [congruence|tauto]].
  destruct (c_backend g) as [b|].
  - rewrite map_ok, backend_ok. split; [intros H; split; [discriminate|split; [discriminate|]]; intros b0 E; injection E as <-; exact H|intros (_ & _ & H); apply H; reflexivity].
  - split; [intros _; split; [discriminate|split; [discriminate|]]; intros b0 E; discriminate|discriminate].
Qed.
Lemma started type g : made w type g <> None <-> startable w g type.
Proof.
  unfold made, make. destruct (lookups (c_resolvers g)) as [gr|] eqn:L.
  2: { split; [congruence|]. intros H. exfalso. inversion H; subst; repeat match goal with H : only _ _ _ |- _ => apply lookup_only in H; congruence | H : several _ _ _ |- _ => apply lookup_several in H; congruence end. }
  destruct (String.eqb_spec type "syslog") as [->|T1].
  { rewrite (one_ok g gr _ (exists p, severity (y_priority g) p) L).
    - split; [intros ((r & O) & P); econstructor; eauto|intros H; inversion H; subst; split; eauto].
    - intros up. rewrite map_ok, some_iff. split; intros (p & P); exists p; apply priority_is; exact P. }
  destruct (String.eqb_spec type "cache") as [->|T2].
  { rewrite (one_ok g gr _ _ L (fun up => cache_ok up g)). split; [intros ((r & O) & A & B & C); econstructor; eauto|intros H; inversion H; subst; split; [eauto|auto]]. }
  destruct (String.eqb_spec type "prefetch") as [->|T3].
  { rewrite (one_ok g gr _ True L); [|intros up; split; [auto|discriminate]]. split; [intros ((r & O) & _); econstructor; eauto|intros H; inversion H; subst; split; eauto]. }
  destruct (String.eqb_spec type "query-log") as [->|T4].
  { rewrite (one_ok g gr _ ((f_file g <> ""%string -> w_append w (f_file g) = true) /\ exists f, format (f_format g) f) L).
    - split; [intros ((r & O) & A & B); econstructor; eauto|intros H; inversion H; subst; split; [eauto|auto]].
    - intros up. rewrite some_iff. split.
      + intros (e & E). apply querylog_is in E. destruct E as (file & f & _ & F & C). split; [|exists f; exact F]. intros Ne. destruct C as [(C & _)|(_ & _ & C)]; [contradiction|exact C].
      + intros (A & f & F). destruct (String.eqb_spec (f_file g) "") as [E|E].
        * exists (EQueryLog R up None f). apply querylog_is. exists None, f. auto.
        * exists (EQueryLog R up (Some (f_file g)) f). apply querylog_is. exists (Some (f_file g)), f. split; [reflexivity|]. split; [exact F|]. right. auto. }
  destruct (String.eqb_spec type "lua") as [->|T5].
  { rewrite some_iff. split.
    - intros (e & E). apply lua_is in E. destruct E as (s & S & N1 & A & B & _). apply lookup_several in L. econstructor; eauto.
    - intros H. inversion H as [| | | |l s Sv Sc N1 A B|]; subst. exists (ELua R gr s (l_noSandbox g) (Lua_model.newPool (l_concurrency g))). apply lua_is. exists s. auto 6. }
  destruct (String.eqb_spec type "dnssec-validator") as [->|T6].
  { rewrite (one_ok g gr _ True L); [|intros up; split; [auto|discriminate]]. split; [intros ((r & O) & _); econstructor; eauto|intros H; inversion H; subst; split; eauto]. }
  split; [congruence|]. intros H. inversion H; subst; congruence.
Qed.
Lemma cfg_type g b : c_backend g = Some b -> b_type b = ""%string -> made w "cache" g = None.
Proof.
  intros B T. destruct (made w "cache" g) eqn:E; [|reflexivity]. exfalso. assert (S : startable w g "cache") by (apply started; congruence).
  inversion S as [| ? ? ? ? X| | | |]; subst. apply X in B. rewrite T in B. cbn in B. destruct B as [B|[B|[]]]; discriminate.
Qed.
End W.
