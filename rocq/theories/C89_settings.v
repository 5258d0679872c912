(** C89: caches, and groups that refresh, log, run scripts or validate do what their settings say *)
From Verif Require Import Base Bytes Dns Lru_model Blob_model Cache_model Cache_spec CacheCfg_model CacheCfg_spec CacheCfg_proofs CacheCfg_proofs2 CacheCfg_proofs3 CacheCfg_demo Cache_demo.
From Verif Require Router_spec Logs_model Logs_spec Prefetch_model Prefetch_spec Lua_model Lua_spec Keystore_model Anchor_model Anchor_spec Dnssec_model Dnssec_spec.
From Coq Require Import Permutation.
Local Open Scope N_scope.

(** Exactly the groups whose settings can be understood are made: one resolver where one is asked, known words, numbers as response codes, a known type of backend, a log file that can be opened, a script that can be read and run. *)
Theorem C89_starts : forall (R : Type) (w : world R) type g,
  made w type g <> None <-> startable w g type.
Proof. intros R w. exact (started w). Qed.
Print Assumptions C89_starts.

(** What a cache answers a query with: it is flushed by the name set for that, and then holds nothing; or it answers with the last answer that came for the question, as long as the settings for TTLs say, aged, in the order the shuffle may give it; or, if hardening is on, with NXDOMAIN below a name that is kept as NXDOMAIN. An answer is asked for again exactly if its TTL was large enough to be eligible and now is below the trigger. *)
Theorem C89_served : forall (R : Type) (w : world R) g e ipString pack unpack hash l c choices reads q now c' r eff,
  made w "cache" g = Some e -> in_memory g -> small g -> ip_text_ok ipString -> Forall event_ok l -> faithful pack unpack l -> query_ok q ->
  cacheRuns R e ipString pack unpack hash l = Some c -> cacheAsk R e ipString unpack hash choices reads q now c = Some (c', Some (r, eff)) ->
  (flushes g q /\ r = set_reply empty_msg q /\ eff = Flushed /\ forall q' t, query_ok q' -> peek ipString unpack hash c' q' t = None) \/
  (~ flushes g q /\ exists a r0, comes_from g pack l q now a r0 /\ shuffles r0 r (c_shuffle g) /\ eff <> Flushed /\
     forall min, eff = Prefetched min <-> eligible g a /\ smallest (records r) = Some min /\ min < c_trigger g) \/
  (~ flushes g q /\ c_harden g = true /\ r = nxdomain q /\ eff = FromCache /\
     exists x t p a r0, m_question q = x :: t /\ dot_ancestor p (q_name x) /\ comes_from g pack l (asking q p) now a r0 /\ m_rcode a = RcodeNameError).
Proof. intros R w. exact (cfg_served w). Qed.
Print Assumptions C89_served.

(** The last answer is served all the time that the settings say, unless a response code is given two limits. *)
Theorem C89_kept : forall (R : Type) (w : world R) g e ipString pack unpack hash l ev c q0 t0 a n b q now r0 choices reads,
  made w "cache" g = Some e -> in_memory g -> small g -> unambiguous g -> ip_text_ok ipString -> Forall event_ok (l ++ [ev]) ->
  cacheRuns R e ipString pack unpack hash (l ++ [ev]) = Some c ->
  arrival ev = Some (q0, t0, a) -> kept g a n -> pack a = Some b -> unpack b = Some a ->
  query_ok q -> same_question q0 q -> (now <= t0 + Z.of_N n * second)%Z -> aged_msg q t0 now a r0 -> ~ flushes g q ->
  exists c' r eff, cacheAsk R e ipString unpack hash choices reads q now c = Some (c', Some (r, eff)) /\ shuffles r0 r (c_shuffle g).
Proof. intros R w. exact (cfg_kept w). Qed.
Print Assumptions C89_kept.

(** There never are more entries than the settings allow: those of the backend if there is one. *)
Theorem C89_capacity : forall (R : Type) (w : world R) g e ipString pack unpack hash l c,
  made w "cache" g = Some e -> in_memory g -> ip_text_ok ipString -> Forall event_ok l ->
  cacheRuns R e ipString pack unpack hash l = Some c -> (0 < capacity g)%Z -> (Z.of_nat (size bytes c) <= capacity g)%Z.
Proof. intros R w. exact (cfg_capacity w). Qed.
Print Assumptions C89_capacity.

(** A cache in memory always works. *)
Theorem C89_total : forall (R : Type) (w : world R) g e ipString pack unpack hash l choices reads q now,
  made w "cache" g = Some e -> in_memory g -> ip_text_ok ipString -> Forall event_ok l -> query_ok q ->
  exists c c' r, cacheRuns R e ipString pack unpack hash l = Some c /\ cacheAsk R e ipString unpack hash choices reads q now c = Some (c', r).
Proof. intros R w. exact (cfg_total w). Qed.
Print Assumptions C89_total.

(** Capacity, time between collections (one minute if not set), file and time between writing it. *)
Theorem C89_memory : forall (R : Type) (w : world R) g e,
  made w "cache" g = Some e -> in_memory g -> short (gc_seconds g) -> exists up o sh gc file save, only w g up /\ e = ECache R up o sh (Memory (capacity g) gc file save) /\
  period (gc_seconds g) gc /\ (c_backend g = None -> file = ""%string) /\ (forall b, c_backend g = Some b -> short (b_saveInterval b) -> file = b_filename b /\ save = ns (b_saveInterval b)).
Proof. intros R w. exact (cfg_memory w). Qed.
Print Assumptions C89_memory.

(** The settings for Redis are those of the backend, waiting times in milliseconds or off. *)
Theorem C89_redis : forall (R : Type) (w : world R) g e b,
  made w "cache" g = Some e -> c_backend g = Some b -> b_type b = "redis"%string -> short_ms (b_minBackoff b) -> short_ms (b_maxBackoff b) ->
  exists up o sh lo hi, only w g up /\ wait (b_minBackoff b) lo /\ wait (b_maxBackoff b) hi /\
    e = ECache R up o sh (Redis (RedisOpts (b_network b) (b_address b) (b_username b) (b_password b) (b_db b) (b_maxRetries b) lo hi (b_keyPrefix b) (b_syncSet b))).
Proof. intros R w. exact (cfg_redis w). Qed.
Print Assumptions C89_redis.

(** prefetch: sends a query again only after as many requests in the window as are set, 5 and one hour if not. *)
Theorem C89_prefetch : forall (R : Type) (w : world R) g e,
  made w "prefetch" g = Some e -> (0 <= p_window g)%Z -> exists up window threshold names, only w g up /\ e = EPrefetching R up window threshold names (p_maxItems g) /\
  (p_cacheSize g <> 0%Z -> names = p_cacheSize g) /\ (p_cacheSize g = 0%Z -> names = (3 * p_maxItems g)%Z) /\
  exists times span, Prefetch_spec.configured (p_threshold g) (p_window g) times span /\
  forall key slack delay l t s k q t1 a b, (0 <= slack)%Z -> (0 <= delay)%Z ->
    Prefetch_model.acts key window threshold slack delay l (Prefetch_model.start t) = Some s -> Prefetch_model.s_log s = a ++ Prefetch_model.Prefetched k q t1 :: b ->
    exists rs, times <= N.of_nat (length rs) /\ NoDup (map fst rs) /\ Prefetch_spec.within (span + slack + 2 * delay) t1 rs /\ forall i t', In (i, t') rs -> exists v, In (Prefetch_model.Counted i k v t') b.
Proof. intros R w. exact (cfg_prefetch w). Qed.
Print Assumptions C89_prefetch.

(** syslog: where to, how severe, which tag; and what is logged. If it cannot be reached queries pass. *)
Theorem C89_syslog : forall (R : Type) (w : world R) g e,
  made w "syslog" g = Some e -> exists up p opt, only w g up /\ severity (y_priority g) p /\ e = ESyslog R up (y_network g) (y_address g) p (y_tag g) opt /\
  forall (answer : msg -> client -> result) q ci x rest, m_question q = x :: rest ->
    Logs_model.syslog_resolve false opt answer q ci = Some ([Logs_model.Call q ci], answer q ci) /\
    exists lines, Logs_model.syslog_resolve true opt answer q ci =
      Some ((if y_request g then [Logs_model.Write (Logs_model.LQuery (m_id q) (ci_ip ci) (q_type x) (q_name x))] else []) ++ [Logs_model.Call q ci] ++ map Logs_model.Write lines, answer q ci) /\
    Logs_spec.reported (Logs_model.SyslogOpts (y_request g) (y_response g) (y_verbose g)) q x (answer q ci) lines.
Proof. intros R w. exact (cfg_syslog w). Qed.
Print Assumptions C89_syslog.

(** query-log: to the end of the file, or the standard output; as text or JSON. *)
Theorem C89_querylog : forall (R : Type) (w : world R) g e,
  made w "query-log" g = Some e -> exists up file f, only w g up /\ e = EQueryLog R up file f /\ format (f_format g) f /\
  ((f_file g = ""%string /\ file = None) \/ (f_file g <> ""%string /\ file = Some (f_file g) /\ w_append w (f_file g) = true)).
Proof. intros R w. exact (cfg_querylog w). Qed.
Print Assumptions C89_querylog.

(** lua: the script is that of the file if one is set, else the one given; as many as set run at a time, 4 if not set. *)
Theorem C89_lua : forall (R : Type) (w : world R) g e,
  made w "lua" g = Some e -> exists gr s pool n, several w g gr /\ script_of w g s /\ e = ELua R gr s (l_noSandbox g) pool /\ Lua_spec.pool_size (l_concurrency g) n /\
  forall l p, Lua_model.pruns pool l = Some p ->
    NoDup (map snd (Lua_model.p_used p)) /\ (length (Lua_model.p_used p) <= n)%nat /\
    (forall r, Lua_model.p_closed p = false -> (Lua_model.pstep p (Lua_model.Take r) = None <-> length (Lua_model.p_used p) = n)).
Proof. intros R w. exact (cfg_lua w). Qed.
Print Assumptions C89_lua.

(** dnssec-validator: with the anchors of the settings, else those behind the URL, else those built in; what is not authentic passes only if log-only is set. *)
Theorem C89_validator : forall (R : Type) (w : world R) g e get unmarshal verify keyTag toDS hashName now qs,
  made w "dnssec-validator" g = Some e -> (0 <= now)%Z ->
  exists anchors st0, Anchor_spec.to_use get unmarshal now (d_url g) Anchor_spec.iana_root (d_anchors g) anchors /\
  validatorRuns R e get unmarshal verify keyTag toDS hashName now qs = Some st0 /\
  forall W st i q m, Dnssec_model.steps W st0 st -> nth_error qs i = Some q -> nth_error (Dnssec_model.s_threads st) i = Some (Dnssec_model.Ret (Ans m)) ->
  exists qu a, List.head (m_question q) = Some qu /\ W (Dnssec_model.upstream_query q) (Ans a) /\
    (Dnssec_spec.message_ok a -> Dnssec_spec.verdict verify keyTag toDS hashName anchors (fun x => Dnssec_model.stripDNSSEC x (Dnssec_model.set_do q) (Dnssec_model.had_edns0 q) (q_type qu)) (d_logOnly g) q a (Dnssec_model.s_time st) (Ans m)).
Proof. intros R w. exact (cfg_validator w). Qed.
Print Assumptions C89_validator.

(** A query is answered from the cache with its TTLs 7 seconds lower; it is asked for again when these are below the trigger; the limit for NOERROR ends it; the name for flushing *)
Example C89_ex_cache :
  demo_ask (demo_cache 5 [] "" "" 0 0 None) demo_hist (t0 + 7500000000)%Z "A.COM." = Some (Some ([13; 23], 0, FromCache)) /\
  demo_ask (demo_cache 5 [] "" "" 15 10 None) demo_hist (t0 + 7500000000)%Z "A.COM." = Some (Some ([13; 23], 0, Prefetched 13)) /\
  demo_ask (demo_cache 5 [("0", 5)]%string "" "" 0 0 None) demo_hist (t0 + 7500000000)%Z "A.COM." = Some None /\
  demo_ask (demo_cache 5 [("3", 5)]%string "random" "" 0 0 (Some (demo_backend "memory"))) demo_hist (t0 + 7500000000)%Z "A.COM." = Some (Some ([13; 23], 0, FromCache)) /\
  demo_ask (demo_cache 5 [] "round-robin" "flush." 0 0 None) demo_hist t0 "flush." = Some (Some ([], 0, Flushed)) /\
  demo_ask (demo_cache 5 [("NXDOMAIN", 5)]%string "" "" 0 0 None) demo_hist t0 "a.com." = None.
Proof. repeat split; vm_compute; reflexivity. Qed.
Example C89_ex_hyps : in_memory (demo_cache 5 [("3", 5)]%string "random" "" 15 10 (Some (demo_backend "memory"))) /\ small (demo_cache 5 [("3", 5)]%string "random" "" 15 10 (Some (demo_backend "memory"))) /\
  ip_text_ok toy_ip /\ Forall event_ok demo_hist /\ faithful toy_pack demo_unp demo_hist /\ query_ok (query "a.com." 1) /\ capacity (demo_cache 5 [] "" "" 0 0 (Some (demo_backend "memory"))) = 1%Z.
Proof.
  split; [right; eexists; split; reflexivity|]. split; [split; [vm_compute; congruence|split; [intros k v [E|[]]; injection E as <- <-; vm_compute; congruence|vm_compute; congruence]]|].
  split; [exact toy_ip_ok|]. destruct demo_hyps as (A & B & C). auto.
Qed.
Example C89_ex_kept : kept (demo_cache 5 [] "" "" 0 0 None) (good_answer "a.com.") 20 /\ unambiguous (demo_cache 5 [] "" "" 0 0 None) /\ eligible (demo_cache 5 [] "" "" 15 10 None) (good_answer "a.com.").
Proof.
  split; [split; [reflexivity|]; exists 20; split; [apply Kept_ttl; [left; reflexivity|split; [reflexivity|discriminate]]|right; split; [intros v (k & [] & _)|reflexivity]]|].
  split; [intros rc v v' (k & [] & _)|]. split; [left; reflexivity|]. exists 20. split; [split; [reflexivity|discriminate]|reflexivity].
Qed.
Definition C89_other := Settings ["up"%string] 0 0 0 [] "" false "" 0 0 (Some (demo_backend "redis")) 0 0 0 100 "udp" "l:514" "warning" "dns" true false false "/log" "json" "x" "a.lua" 0 false [] "" true.
Example C89_ex_others :
  (exists o, made demo_w "cache" C89_other = Some (ECache nat 1%nat o NoShuffle (Redis (RedisOpts "" "r:6379" "" "" 0 0 (-1) 20000000 "p:" false)))) /\
  made demo_w "prefetch" C89_other = Some (EPrefetching nat 1%nat 3600000000000 5 300 100) /\
  made demo_w "syslog" C89_other = Some (ESyslog nat 1%nat "udp" "l:514" 4 "dns" (Logs_model.SyslogOpts true false false)) /\
  made demo_w "query-log" C89_other = Some (EQueryLog nat 1%nat (Some "/log"%string) JSONLog) /\
  (exists p, made demo_w "lua" C89_other = Some (ELua nat [1%nat] "return" false p) /\ length (Lua_model.p_idle p) = 4%nat) /\
  made demo_w "dnssec-validator" C89_other = Some (EValidator nat 1%nat [] "" true) /\ made demo_w "lua" (plain []) = None.
Proof. split; [eexists; reflexivity|]. do 3 (split; [reflexivity|]). split; [eexists; split; reflexivity|]. split; reflexivity. Qed.

(** Not so: that a backend without a type is a cache in memory, as config.go says. It is refused. *)
Theorem C89_type_refuted : forall (R : Type) (w : world R) g b, c_backend g = Some b -> b_type b = ""%string -> made w "cache" g = None.
Proof. intros R w. exact (cfg_type w). Qed.
Print Assumptions C89_type_refuted.
(** Not so: that the settings decide how long answers are kept. If a response code is written in two ways, the order in which the program visits a map does. *)
Theorem C89_order_refuted : exists g g' now, Permutation (c_rcodeMax g) (c_rcodeMax g') /\ NoDup (map fst (c_rcodeMax g)) /\
  (exists x, demo_ask g demo_hist now "a.com." = Some (Some x)) /\ demo_ask g' demo_hist now "a.com." = Some None /\
  g' = demo_cache 5 (c_rcodeMax g') "" "" 0 0 None /\ g = demo_cache 5 (c_rcodeMax g) "" "" 0 0 None.
Proof. exact order_matters. Qed.
Print Assumptions C89_order_refuted.
(** Not so: that records with at least the TTL set as eligible are asked for again, as the documentation says. It must be greater. *)
Theorem C89_eligible_refuted : exists g now, c_eligible g = 20 /\ c_trigger g = 15 /\ ttl_of (good_answer "a.com.") 20 /\ small g /\ in_memory g /\
  exists l n, demo_ask g demo_hist now "a.com." = Some (Some (l, 0, FromCache)) /\ In n l /\ n < 15.
Proof. exact at_least. Qed.
Print Assumptions C89_eligible_refuted.
