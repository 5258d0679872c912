(** Elements put together: each constructor of [element] is the Resolve of one element, taken from its own model, as a function of what the
    resolvers behind it give. An element with several resolvers (blocklists, router, truncate-retry) gets one function, which may answer by
    either. State (cache, rate limiter, shared answers of request-dedup, the records of a static responder) may be any.
    cmd/routedns/main.go:475-1086 instantiateGroup builds such elements from the configuration. *)
From Verif Require Import Base Bytes Net Dns.
From Verif Require Groups_model Modifiers_spec Client_model Pipeline_model Pipeline_spec Lists_model Modifiers_model Blocklist_model Lru_model Cache_model Dns64_model Dedup_model FastestTcp_model Logs_model RateLimit_model Router_model Static_model Dnssec_model Redis_model.
Local Open Scope N_scope.

Definition resolver := msg -> client -> result.
(** The functions of edns0-modifier.go and ecs-modifier.go that change a query, as cmd/routedns/main.go:672-711 chooses them *)
Inductive modifier : (client -> msg -> msg) -> Prop :=
| m_none : modifier (fun _ q => q)
| m_delete code : modifier (fun _ => Modifiers_model.EDNS0ModifierDelete code)
| m_add code data : modifier (fun _ => Modifiers_model.EDNS0ModifierAdd code data)
| m_ecs_delete : modifier (fun _ => Modifiers_model.ECSModifierDelete)
| m_ecs_add addr p4 p6 : modifier (Modifiers_model.ECSModifierAdd addr p4 p6)
| m_ecs_missing addr p4 p6 : modifier (Modifiers_model.ECSModifierAddIfMissing addr p4 p6)
| m_ecs_privacy p4 p6 : modifier (fun _ => Modifiers_model.ECSModifierPrivacy p4 p6).

(** None: a panic. The cache with Redis is that of cache.go:204-285 without flushing and without hardening, which e_cache has. Each line is the Resolve of the file named by its constructor; the models cite the lines *)
Inductive element : (resolver -> msg -> client -> option result) -> Prop :=
| e_ttl intn sel lo hi : element (fun up q ci => Some (Modifiers_model.ttl_resolve intn sel lo hi (up q ci)))
| e_replace exps : element (fun up q ci => option_map snd (Modifiers_model.replace_resolve exps (fun q => up q ci) q))
| e_minimize : element (fun up q ci => Some (Modifiers_model.minimize_resolve (up q ci)))
| e_collapse rcode : element (fun up q ci => Modifiers_model.collapse_resolve rcode (fun q => up q ci) q)
| e_truncate : element (fun up q ci => Some (snd (Modifiers_model.truncate_resolve (fun q => up q ci) (fun q => up q ci) q)))
| e_modifier f : modifier f -> element (fun up q ci => Some (snd (Modifiers_model.modify_query (Some (f ci)) (fun q => up q ci) q)))
| e_dns64 prefixes : element (fun up q ci => option_map snd (Dns64_model.dns64_resolve prefixes (fun q => up q ci) q))
| e_blocklist allow block hasAllow hasBlock t : element (fun up q ci => option_map snd (Blocklist_model.blocklist_resolve (fun _ => up) allow block hasAllow hasBlock t q ci))
| e_client db useECS hasBlock : element (fun up q ci => Some (snd (Blocklist_model.client_resolve (fun _ => up) db useECS hasBlock q ci)))
| e_response_ip db filter_ inverted hasBlock t : element (fun up q ci => Some (snd (Blocklist_model.rip_resolve (fun _ => up) db filter_ inverted hasBlock t q ci)))
| e_response_name kv db id inverted hasBlock t : element (fun up q ci => option_map snd (Blocklist_model.rname_resolve (fun _ => up) kv db id inverted hasBlock t q ci))
| e_cache ipString pack unpack hash o shuffle now later c : (forall a, m_id (shuffle a) = m_id a /\ m_question (shuffle a) = m_question a) ->
    element (fun up q ci => option_map snd (Cache_model.resolve ipString pack unpack hash o shuffle q now later (up q ci) c))
| e_cache_redis ipString classString typeString unpack keyPrefix shuffle now st : (forall a, m_id (shuffle a) = m_id a /\ m_question (shuffle a) = m_question a) ->
    element (fun up q ci => if Nat.ltb 1 (length (m_question q)) then Some (up q ci) else
      match Redis_model.redis_lookup ipString classString typeString unpack keyPrefix q now st with None => None | Some (Some (a, _)) => Some (Ans (shuffle a)) | Some None => Some (up q ci) end)
| e_fastest_tcp waitAll ttlmin arr : element (fun up q ci => FastestTcp_model.fastest_tcp waitAll ttlmin arr q (up q ci))
| e_syslog writer opt : element (fun up q ci => option_map snd (Logs_model.syslog_resolve writer opt up q ci))
| e_query_log : element (fun up q ci => option_map snd (Logs_model.querylog_resolve up q ci))
| e_router now routes : element (fun up q ci => option_map snd (Router_model.router_resolve (fun _ => up) now routes q ci))
| e_rate_limiter (out : RateLimit_model.rl_out) : element (fun up q ci =>
    match out with RateLimit_model.RlForward | RateLimit_model.RlLimit => Some (up q ci) | RateLimit_model.RlDrop => Some Drop | RateLimit_model.RlPanic => None end)
| e_dedup (q' : msg) (ci' : client) : element (fun up q ci => Some (Dedup_model.own_copy q (up q' ci')))
| e_static s h : element (fun up q ci => option_map (fun x => Ans (snd x)) (Static_model.static_resolve s h q))
| e_template answer ns extra rcode cut ede newRR classToString typeToString (a n e : list rr) :
    element (fun up q ci => let '(m, _, _, _) := Static_model.template_resolve newRR classToString typeToString answer ns extra rcode cut ede q in
                            Some (Ans (set_answer a (set_ns n (set_extra e m)))))
| e_drop : element (fun up q ci => Some (Static_model.drop_resolve q)).

(** What a part of a configuration may answer to a query of a client *)
Definition answers := msg -> client -> msg -> Prop.
Definition within (B : answers) (up : resolver) : Prop := forall q ci a, up q ci = Ans a -> B q ci a.
(** Runs of the validator's program (dnssec.go), other queries going on at the same time *)
Inductive ends (B : answers) (ci : client) : Dnssec_model.prog result -> result -> Prop :=
| ends_ret r : ends B ci (Dnssec_model.Ret r) r
| ends_step t s s' p p' r : Dnssec_model.pstep (fun q x => forall a, x = Ans a -> B q ci a) t s p s' p' -> ends B ci p' r -> ends B ci p r.
(** A call t of a group that got what the events hold, and returned r: roundrobin.go, failrotate.go, failback.go, random.go under any concurrent calls *)
Inductive group_run (t : nat) (l : list Groups_model.gevent) (r : result) : Prop :=
| run_round_robin n s : Groups_model.exec (Groups_model.rr_step n) Groups_model.g_init l = Some s -> Groups_model.g_pc s t = Groups_model.Returned r -> group_run t l r
| run_fail_rotate n good s : Groups_model.exec (Groups_model.fr_step n good) Groups_model.g_init l = Some s -> Groups_model.g_pc s t = Groups_model.Returned r -> group_run t l r
| run_fail_back n good reset s : Groups_model.exec (Groups_model.fb_step n good reset) Groups_model.fb_init l = Some s -> Groups_model.fb_pc s t = Groups_model.Returned r -> group_run t l r
| run_random good resolvers s : Groups_model.exec (Groups_model.rnd_step good) (Groups_model.rnd_init resolvers) l = Some s -> Groups_model.r_pc s t = Groups_model.Returned r -> group_run t l r.
(** One of these may give this answer *)
Definition some_of (Bs : list answers) : answers := fun q ci a => exists B, In B Bs /\ B q ci a.
(** Configurations over given resolvers: elements, groups (also loadbalance.go, fastest.go), validators *)
Inductive built (leaf : answers -> Prop) : answers -> Prop :=
| built_leaf B : leaf B -> built leaf B
| built_element F B : element F -> built leaf B -> built leaf (fun q ci a => exists up, within B up /\ F up q ci = Some (Ans a))
| built_group Bs : Forall (built leaf) Bs ->
    built leaf (fun q ci a => exists t l, group_run t l (Ans a) /\ forall x, In (Groups_model.Reply t (Ans x)) l -> some_of Bs q ci x)
| built_load_balance good picks Bs : Forall (built leaf) Bs ->
    built leaf (fun q ci a => exists up asked, Groups_model.lb_resolve good picks up (length Bs) = Some (asked, Ans a) /\ forall k i x, up k i = Ans x -> some_of Bs q ci x)
| built_fastest Bs : Forall (built leaf) Bs ->
    built leaf (fun q ci a => exists l s, Groups_model.fastest_exec (length Bs) (Groups_model.fastest_init (length Bs)) l = Some s /\ Groups_model.f_ret s = Some (Ans a) /\
                                          forall i x, In (Groups_model.Arrive i (Ans x)) l -> some_of Bs q ci x)
| built_validator verify keyTag toDS hashName logOnly B : built leaf B -> built leaf (fun q ci a => ends B ci (Dnssec_model.resolve verify keyTag toDS hashName logOnly q) (Ans a)).

(** Clients of upstream servers: DoQ (doqclient.go:149-264); plain, DoT and DTLS clients, over a connection with any history (pipeline.go:54-190) *)
Inductive net_client : answers -> Prop :=
| net_doq unpack pack answer : (forall b a, unpack b = Some a -> Modifiers_spec.opt_wf a) ->
    net_client (fun q _ a => exists conn dials, snd (Client_model.doq_resolve unpack pack answer conn dials q) = Ans a)
| net_pipeline : net_client (fun q _ a => exists l s k, Pipeline_spec.reached l s /\ In (Pipeline_model.ECall k q) l /\ Pipeline_model.callers s k = Pipeline_model.CRet (Ans a)).
