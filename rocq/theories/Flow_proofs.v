(** Lemmas for C85. *)
From Verif Require Import Base Bytes Net Dns Client_spec Flow_model Flow_spec Listener_model.
From Verif Require Groups_model NetRes_proofs Pipeline_proofs3 Blob_model Lru_model Lists_model Modifiers_model Blocklist_model Cache_model Dns64_model Dedup_model FastestTcp_model Logs_model RateLimit_model Router_model Static_model Dnssec_model Redis_model.
Local Open Scope N_scope.

(** ** ID and question are all that matters *)
Definition same (a b : msg) : Prop := m_id a = m_id b /\ m_question a = m_question b.
Lemma same_refl a : same a a. Proof. split; reflexivity. Qed.
Lemma same_trans a b c : same a b -> same b c -> same a c. Proof. intros [A B] [C D]. split; congruence. Qed.
Lemma same_answer l a : same (set_answer l a) a. Proof. split; reflexivity. Qed.
Lemma same_ns l a : same (set_ns l a) a. Proof. split; reflexivity. Qed.
Lemma same_extra l a : same (set_extra l a) a. Proof. split; reflexivity. Qed.
Lemma same_update f a : same (update_edns0 f a) a. Proof. split; reflexivity. Qed.
Lemma same_edns0 n d a : same (set_edns0 n d a) a. Proof. split; reflexivity. Qed.
Lemma reply_same q q' a a' : reply_to q a -> same q' q -> same a' a -> reply_to q' a'.
Proof. unfold reply_to, echoes. intros [A B] [C D] [E F]. rewrite C, D, E, F. auto. Qed.
Lemma reply_own q a : m_question q <> [] -> same a q -> reply_to q a.
Proof. intros N [A B]. split; [exact A|]. right. rewrite B. destruct (m_question q) as [|x l]; [congruence|]. exists x, l, x, l. auto. Qed.
Lemma reply_set q m : reply_to q (set_reply m q).
Proof. split; [reflexivity|]. destruct (m_question q) as [|x l] eqn:E; [left; exact E|]. right. exists x, l, x, []. unfold set_reply. cbn [m_question]. rewrite E. auto 6. Qed.
Lemma reply_made q m a : same a (set_reply m q) -> reply_to q a.
Proof. intros S. apply (reply_same q q (set_reply m q) a); [apply reply_set|apply same_refl|exact S]. Qed.
Lemma reply_code q c : reply_to q (responseWithCode q c).
Proof. apply (reply_made q empty_msg). split; reflexivity. Qed.
Lemma same_ede t m q x : same (Blocklist_model.ede_apply t m q x) m.
Proof. unfold Blocklist_model.ede_apply. destruct t as [t|]; [|apply same_refl]. destruct (Blocklist_model.ede_text t q x); [|apply same_refl]. split; reflexivity. Qed.

(** ** Modifiers *)
Lemma same_delete c q : same (Modifiers_model.EDNS0ModifierDelete c q) q.
Proof. unfold Modifiers_model.EDNS0ModifierDelete. destruct (is_edns0 q); split; reflexivity. Qed.
Lemma same_append o q : same (Modifiers_model.append_option o q) q.
Proof. unfold Modifiers_model.append_option. destruct (is_edns0 q); split; reflexivity. Qed.
Lemma same_ecs_delete q : same (Modifiers_model.ECSModifierDelete q) q.
Proof. unfold Modifiers_model.ECSModifierDelete. destruct (is_edns0 q); split; reflexivity. Qed.
Lemma same_ecs_add a b c ci q : same (Modifiers_model.ECSModifierAdd a b c ci q) q.
Proof. unfold Modifiers_model.ECSModifierAdd. eapply same_trans; [apply same_append|apply same_ecs_delete]. Qed.
Lemma same_modifier f ci q : modifier f -> same (f ci q) q.
Proof.
  intros [ |c|c d| |a b c|a b c|b c].
  - apply same_refl.
  - apply same_delete.
  - eapply same_trans; [apply same_append|apply same_delete].
  - apply same_ecs_delete.
  - apply same_ecs_add.
  - unfold Modifiers_model.ECSModifierAddIfMissing. destruct (is_edns0 q) as [o|]; [destruct (existsb _ _); [apply same_refl|]|]; apply same_ecs_add.
  - unfold Modifiers_model.ECSModifierPrivacy. destruct (is_edns0 q); split; reflexivity.
Qed.

(** ** Elements *)
Definition faithful (up : resolver) : Prop := fair (fun q ci a => up q ci = Ans a).
Definition keeps (F : resolver -> msg -> client -> option result) : Prop := forall up, faithful up -> fair (fun q ci a => F up q ci = Some (Ans a)).
Lemma faithful_within B up : fair B -> within B up -> faithful up.
Proof. intros F W q ci a N U. apply (F q ci a N). apply W. exact U. Qed.

Section KEEPS.
Variable up : resolver.
Hypothesis U : faithful up.
Variable q : msg.
Variable ci : client.
Hypothesis N : m_question q <> [].
Lemma up_reply a : up q ci = Ans a -> reply_to q a.
Proof. apply U. exact N. Qed.
Lemma up_same a a' : up q ci = Ans a -> same a' a -> reply_to q a'.
Proof. intros A S. apply (reply_same q q a a'); [apply up_reply; exact A|apply same_refl|exact S]. Qed.
Lemma up_changed q' a a' : same q' q -> up q' ci = Ans a -> same a' a -> reply_to q a'.
Proof. intros Q A S. apply (reply_same q' q a a'); [|destruct Q; split; congruence|exact S]. apply (U q' ci a); [|exact A]. destruct Q as [_ ->]. exact N. Qed.
End KEEPS.

Lemma keeps_ttl intn sel lo hi : keeps (fun up q ci => Some (Modifiers_model.ttl_resolve intn sel lo hi (up q ci))).
Proof.
  intros up U q ci a N E. unfold Modifiers_model.ttl_resolve in E. destruct (up q ci) as [b| |e] eqn:A; [|discriminate|discriminate].
  injection E as <-. apply (up_same up U q ci N b _ A). destruct sel; split; reflexivity.
Qed.
Lemma keeps_replace exps : keeps (fun up q ci => option_map snd (Modifiers_model.replace_resolve exps (fun q => up q ci) q)).
Proof.
  intros up U q ci a N E. unfold Modifiers_model.replace_resolve in E. destruct (m_question q) as [|x l] eqn:HQ; [congruence|].
  destruct (String.eqb _ _) eqn:S.
  - cbn in E. apply (up_reply up U q ci); [rewrite HQ; discriminate|congruence].
  - cbn [option_map snd] in E. set (n := Modifiers_model.apply_exps exps (q_name x)) in *.
    destruct (up (Modifiers_model.set_qname n q) ci) as [b| |e] eqn:A; [|discriminate|discriminate]. injection E as <-.
    assert (Hq : m_question (Modifiers_model.set_qname n q) = Q n (q_type x) (q_class x) :: l) by (unfold Modifiers_model.set_qname; rewrite HQ; reflexivity).
    assert (Hi : m_id (Modifiers_model.set_qname n q) = m_id q) by (unfold Modifiers_model.set_qname; rewrite HQ; reflexivity).
    destruct (U (Modifiers_model.set_qname n q) ci b) as [I [Z|(x' & l' & y & m & X & Y & _ & T & C)]]; [rewrite Hq; discriminate|exact A|congruence|].
    rewrite Hq in X. injection X as <- <-. cbn [q_type q_class] in T, C.
    split; [unfold Modifiers_model.set_qname; rewrite Y; cbn; congruence|].
    right. exists x, l. unfold Modifiers_model.set_qname. rewrite Y. cbn. exists (Q (q_name x) (q_type y) (q_class y)), m. auto.
Qed.
Lemma keeps_minimize : keeps (fun up q ci => Some (Modifiers_model.minimize_resolve (up q ci))).
Proof.
  intros up U q ci a N E. destruct (up q ci) as [b| |e] eqn:A; try discriminate. injection E as <-. apply (up_same up U q ci N b _ A). split; reflexivity.
Qed.
Lemma keeps_collapse rcode : keeps (fun up q ci => Modifiers_model.collapse_resolve rcode (fun q => up q ci) q).
Proof.
  intros up U q ci a N E. unfold Modifiers_model.collapse_resolve in E. destruct (up q ci) as [b| |e] eqn:A; try discriminate.
  destruct (negb _); [injection E as <-; exact (up_reply up U q ci N b A)|].
  destruct (m_question q) as [|x l] eqn:HQ; [congruence|]. rewrite <- HQ in N.
  destruct (map _ _); injection E as <-; [apply reply_code|apply (up_same up U q ci N b _ A); split; reflexivity].
Qed.
Lemma keeps_truncate : keeps (fun up q ci => Some (snd (Modifiers_model.truncate_resolve (fun q => up q ci) (fun q => up q ci) q))).
Proof.
  intros up U q ci a N E. unfold Modifiers_model.truncate_resolve in E. destruct (up q ci) as [b| |e] eqn:A; try discriminate.
  destruct (m_tc b); cbn in E; injection E as <-; exact (up_reply up U q ci N _ A).
Qed.
Lemma keeps_modifier f : modifier f -> keeps (fun up q ci => Some (snd (Modifiers_model.modify_query (Some (f ci)) (fun q => up q ci) q))).
Proof.
  intros M up U q ci a N E. cbn in E. injection E as E. apply (up_changed up U q ci N (f ci q) a a); [apply same_modifier; exact M|exact E|apply same_refl].
Qed.
Lemma keeps_dns64 prefixes : keeps (fun up q ci => option_map snd (Dns64_model.dns64_resolve prefixes (fun q => up q ci) q)).
Proof.
  intros up U q ci a N E. unfold Dns64_model.dns64_resolve in E. destruct (m_question q) as [|x l] eqn:HQ; [congruence|]. rewrite <- HQ in N.
  assert (K : forall b, up q ci = Ans b -> reply_to q b) by (apply up_reply; assumption).
  destruct (negb (q_type x =? TypeAAAA)); [cbn in E; apply K; congruence|].
  destruct (match is_edns0 q with Some o => opt_do o | None => false end); [cbn in E; apply K; congruence|].
  destruct (up q ci) as [b| |e] eqn:A; try discriminate. specialize (K b eq_refl).
  destruct (negb _); [cbn in E; congruence|]. destruct (Dns64_model.hasAAAARecords b); [cbn in E; congruence|].
  destruct (up (Dns64_model.a_query q) ci) as [c| |e]; try (cbn in E; congruence).
  destruct (negb _); [cbn in E; congruence|]. destruct (Dns64_model.synthesizeAAAA prefixes c x); cbn in E; [congruence|].
  injection E as <-. apply (reply_made q empty_msg). split; reflexivity.
Qed.
Lemma keeps_blocklist allow block hasAllow hasBlock t : keeps (fun up q ci => option_map snd (Blocklist_model.blocklist_resolve (fun _ => up) allow block hasAllow hasBlock t q ci)).
Proof.
  intros up U q ci a N E. unfold Blocklist_model.blocklist_resolve in E. destruct (m_question q) as [|x l] eqn:HQ; [congruence|]. rewrite <- HQ in N.
  assert (K : forall b, up q ci = Ans b -> reply_to q b) by (apply up_reply; assumption).
  set (rest := match block q with None => None | Some r => _ end) in E.
  assert (R : option_map snd rest = Some (Ans a) -> reply_to q a).
  { subst rest. clear E. intros E. destruct (block q) as [r|]; [|discriminate]. destruct (negb (Lists_model.mr_ok r)); [cbn in E; apply K; congruence|].
    destruct (Lists_model.mr_match r) as [mt|]; [|discriminate].
    assert (Z : option_map snd (if hasBlock then Some (Blocklist_model.call (fun _ => up) Blocklist_model.BlocklistResolver q ci)
        else match Blocklist_model.spoof x (Lists_model.mr_ips r) with
             | [] => Some ([], Ans (set_rcode (Blocklist_model.ede_apply t (set_ra true (set_reply empty_msg q)) q (Some mt)) q RcodeNameError))
             | l => Some ([], Ans (set_answer l (set_ra true (set_reply empty_msg q)))) end) = Some (Ans a) -> reply_to q a).
    { clear E. intros E. destruct hasBlock; [cbn in E; apply K; congruence|]. destruct (Blocklist_model.spoof x (Lists_model.mr_ips r)); cbn in E; injection E as <-.
      - apply (reply_made q (Blocklist_model.ede_apply t (set_ra true (set_reply empty_msg q)) q (Some mt))). split; reflexivity.
      - apply (reply_made q empty_msg). split; reflexivity. }
    destruct (N.eqb (q_type x) TypePTR); [|exact (Z E)]. destruct (Lists_model.mr_names r) as [|n ns]; [exact (Z E)|].
    unfold ptr in E. rewrite HQ in E. cbn [option_map snd] in E. injection E as <-. apply (reply_made q empty_msg). split; reflexivity. }
  destruct allow as [db|]; [|exact (R E)]. destruct (db q) as [r|]; [|discriminate]. destruct (Lists_model.mr_ok r); [|exact (R E)].
  destruct (Lists_model.mr_match r); [|discriminate]. cbn in E. apply K. congruence.
Qed.
Lemma keeps_client db useECS hasBlock : keeps (fun up q ci => Some (snd (Blocklist_model.client_resolve (fun _ => up) db useECS hasBlock q ci))).
Proof.
  intros up U q ci a N E. assert (K : forall b, up q ci = Ans b -> reply_to q b) by (apply up_reply; assumption). unfold Blocklist_model.client_resolve in E.
  destruct (Blocklist_model.client_ip useECS q ci); [cbn in E; apply K; congruence|]. destruct (db _); [|cbn in E; apply K; congruence].
  destruct hasBlock; [cbn in E; apply K; congruence|]. cbn [snd] in E. injection E as <-. apply reply_code.
Qed.
Lemma keeps_response_ip db f inverted hasBlock t : keeps (fun up q ci => Some (snd (Blocklist_model.rip_resolve (fun _ => up) db f inverted hasBlock t q ci))).
Proof.
  intros up U q ci a N E. assert (K : forall b a', up q ci = Ans b -> same a' b -> reply_to q a') by (apply up_same; assumption). unfold Blocklist_model.rip_resolve in E.
  destruct (up q ci) as [b| |e] eqn:A; try discriminate. injection E as E. cbn [Blocklist_model.after snd] in E.
  destruct (negb _); [cbn in E; injection E as <-; exact (K b b eq_refl (same_refl b))|].
  destruct f.
  - unfold Blocklist_model.ip_filter in E. destruct (Blocklist_model.filterRR _ _ (m_answer b)) as [|r l].
    + destruct hasBlock; [cbn in E; apply (K a a); [congruence|apply same_refl]|]. cbn [snd] in E. injection E as <-. apply reply_code.
    + cbn [snd] in E. injection E as <-. apply (K b); [reflexivity|split; reflexivity].
  - unfold Blocklist_model.ip_block in E. destruct (find _ _).
    + destruct hasBlock; [cbn in E; apply (K a a); [congruence|apply same_refl]|]. cbn [snd] in E. injection E as <-.
      eapply reply_same; [apply reply_code|apply same_refl|apply same_ede].
    + cbn in E. injection E as <-. exact (K b b eq_refl (same_refl b)).
Qed.
Lemma keeps_response_name kv db id inverted hasBlock t : keeps (fun up q ci => option_map snd (Blocklist_model.rname_resolve (fun _ => up) kv db id inverted hasBlock t q ci)).
Proof.
  intros up U q ci a N E. assert (K : forall b, up q ci = Ans b -> reply_to q b) by (apply up_reply; assumption). unfold Blocklist_model.rname_resolve in E.
  destruct (up q ci) as [b| |e] eqn:A; try discriminate.
  generalize (Blocklist_model.sections b) as l, E. clear E. induction l as [|r l IH]; intros E; cbn [Blocklist_model.name_block] in E.
  - cbn in E. apply K. congruence.
  - destruct (Blocklist_model.rr_text kv r) as [name|]; [|exact (IH E)]. destruct (db _) as [m|]; [|discriminate].
    destruct (negb _); [|exact (IH E)]. destruct hasBlock.
    + cbn in E. apply K. congruence.
    + cbn [option_map Blocklist_model.after snd] in E. injection E as <-. eapply reply_same; [apply reply_code|apply same_refl|apply same_ede].
Qed.
Lemma same_age answer q age a : Cache_model.ageCachedAnswer answer q age = Some a -> same a q.
Proof.
  unfold Cache_model.ageCachedAnswer. destruct (Cache_model.age_rrs _ _); [|discriminate]. destruct (Cache_model.age_rrs _ _); [|discriminate].
  destruct (Cache_model.age_rrs _ _); [|discriminate]. intros [= <-]. split; reflexivity.
Qed.
Lemma keeps_fastest waitAll ttlmin arr : keeps (fun up q ci => FastestTcp_model.fastest_tcp waitAll ttlmin arr q (up q ci)).
Proof.
  intros up U q ci a N E. assert (K : forall b a', up q ci = Ans b -> same a' b -> reply_to q a') by (apply up_same; assumption). unfold FastestTcp_model.fastest_tcp in E.
  destruct (up q ci) as [b| |e] eqn:A; try discriminate. destruct (m_question q) as [|x l]; [congruence|].
  destruct (_ && _); [injection E as <-; exact (K b b eq_refl (same_refl b))|].
  destruct (Nat.ltb _ _); [injection E as <-; exact (K b b eq_refl (same_refl b))|].
  destruct (if waitAll then _ else _); injection E as <-; apply (K b); try reflexivity; split; reflexivity.
Qed.
Lemma keeps_syslog writer opt : keeps (fun up q ci => option_map snd (Logs_model.syslog_resolve writer opt up q ci)).
Proof.
  intros up U q ci a N E. apply (up_reply up U q ci N). unfold Logs_model.syslog_resolve in E. destruct (negb writer); [cbn in E; congruence|].
  match type of E with option_map snd (match ?x with _ => _ end) = _ => destruct x end; cbn in E; congruence.
Qed.
Lemma keeps_query_log : keeps (fun up q ci => option_map snd (Logs_model.querylog_resolve up q ci)).
Proof.
  intros up U q ci a N E. apply (up_reply up U q ci N). unfold Logs_model.querylog_resolve in E. destruct (m_question q); [discriminate|]. cbn in E. congruence.
Qed.
Lemma keeps_router now routes : keeps (fun up q ci => option_map snd (Router_model.router_resolve (fun _ => up) now routes q ci)).
Proof.
  intros up U q ci a N E. apply (up_reply up U q ci N). unfold Router_model.router_resolve in E. destruct (m_question q); [discriminate|].
  revert E. generalize 0%nat. induction routes as [|r rest IH]; intros i E; cbn [Router_model.resolve_from] in E; [discriminate|].
  destruct (Router_model.route_match _ _ _ _) as [[|]|]; [cbn in E; congruence|exact (IH _ E)|discriminate].
Qed.
Lemma keeps_rate_limiter out : keeps (fun up q ci =>
  match out with RateLimit_model.RlForward | RateLimit_model.RlLimit => Some (up q ci) | RateLimit_model.RlDrop => Some Drop | RateLimit_model.RlPanic => None end).
Proof. intros up U q ci a N E. apply (up_reply up U q ci N). destruct out; congruence. Qed.
Lemma keeps_dedup q' ci' : keeps (fun up q ci => Some (Dedup_model.own_copy q (up q' ci'))).
Proof.
  intros up U q ci a N E. unfold Dedup_model.own_copy in E. destruct (up q' ci'); try discriminate. injection E as <-. apply reply_own; [exact N|split; reflexivity].
Qed.
Lemma keeps_static s h : keeps (fun up q ci => option_map (fun x => Ans (snd x)) (Static_model.static_resolve s h q)).
Proof.
  intros up U q ci a N E. unfold Static_model.static_resolve in E.
  destruct (Static_model.copyRRs _ _) as [[h1 l1]|]; [|discriminate]. destruct (Static_model.copyRRs _ _) as [[h2 l2]|]; [|discriminate].
  destruct (Static_model.copyRRs _ _) as [[h3 l3]|]; [|discriminate]. cbn [option_map snd] in E. injection E as <-.
  apply (reply_made q empty_msg). eapply same_trans; [apply same_ede|]. split; reflexivity.
Qed.
Lemma keeps_template answer ns extra rcode cut ede newRR classToString typeToString (a n e : list rr) : keeps (fun up q ci =>
  let '(m, _, _, _) := Static_model.template_resolve newRR classToString typeToString answer ns extra rcode cut ede q in Some (Ans (set_answer a (set_ns n (set_extra e m))))).
Proof. intros up U q ci b N E. cbn in E. injection E as <-. apply (reply_made q empty_msg). split; reflexivity. Qed.
Section CACHE.
Variable ipString : bytes -> string.
Variable pack : msg -> option bytes.
Variable unpack : bytes -> option msg.
Variable hash : Blob_model.lruKey -> N.
Lemma same_lookup q now c c' a pf : Cache_model.mem_lookup ipString unpack hash q now c = Some (c', Some (a, pf)) -> same a q.
Proof.
  unfold Cache_model.mem_lookup. destruct (Blob_model.lruKeyFromQuery ipString q) as [k|]; [|discriminate]. destruct (Lru_model.get _ _ _ _ _ _) as [c1 [b|]]; [|discriminate].
  unfold Cache_model.mem_finish. destruct (Z.ltb _ _); [destruct (Cache_model.mem_evict _ _ _ _); discriminate|].
  destruct (unpack _); [|destruct (Cache_model.mem_evict _ _ _ _); discriminate].
  destruct (Cache_model.ageCachedAnswer _ _ _) as [x|] eqn:G; [|destruct (Cache_model.mem_evict _ _ _ _); discriminate].
  intros E. assert (x = a) as <- by congruence. exact (same_age _ _ _ _ G).
Qed.
Lemma reply_harden q now names : forall c c' a pf, Cache_model.harden_loop ipString unpack hash q now names c = Some (c', Some (a, pf)) -> reply_to q a.
Proof.
  induction names as [|n names IH]; intros c c' a pf E; cbn [Cache_model.harden_loop] in E; [discriminate|].
  destruct (Cache_model.mem_lookup _ _ _ _ _ _) as [[c1 [[b pf1]|]]|]; [|exact (IH _ _ _ _ E)|discriminate].
  destruct (_ =? _); [|discriminate]. assert (nxdomain q = a) as <- by congruence. apply reply_code.
Qed.
Lemma keeps_cache o shuffle now later c : (forall a, m_id (shuffle a) = m_id a /\ m_question (shuffle a) = m_question a) ->
  keeps (fun up q ci => option_map snd (Cache_model.resolve ipString pack unpack hash o shuffle q now later (up q ci) c)).
Proof.
  intros S up U q ci a N E. assert (K : forall b, up q ci = Ans b -> reply_to q b) by (apply up_reply; assumption). unfold Cache_model.resolve in E.
  destruct (Nat.ltb _ _); [cbn in E; apply K; congruence|].
  assert (L : forall c' a' x, Cache_model.resolve_lookup ipString unpack hash o shuffle q now c = Some (c', Some (a', x)) -> reply_to q a').
  { clear E. intros c' a' x E. unfold Cache_model.resolve_lookup in E. destruct (_ && _).
    - assert (set_reply empty_msg q = a') as <- by congruence. apply reply_set.
    - destruct (Cache_model.answerFromCache _ _ _ _ _ _ _ _) as [[c1 [[b pf]|]]|] eqn:F; [|discriminate|discriminate].
      assert (b = a') as Eb.
      { destruct (_ && _); [|congruence]. destruct (Cache_model.minTTL b) as [m ok]. destruct (_ && _); congruence. }
      subst b. unfold Cache_model.answerFromCache in F. destruct (Cache_model.mem_lookup _ _ _ _ _ _) as [[c2 [[b pf2]|]]|] eqn:M; [| |discriminate].
      + assert (shuffle b = a') as <- by congruence. apply reply_own; [exact N|]. eapply same_trans; [exact (S b)|]. exact (same_lookup _ _ _ _ _ _ M).
      + destruct (Cache_model.o_harden o); [|discriminate]. destruct (m_question q); [congruence|]. exact (reply_harden _ _ _ _ _ _ _ F). }
  destruct (Cache_model.resolve_lookup _ _ _ _ _ _ _ _) as [[c1 [[b x]|]]|]; [| |discriminate].
  - assert (b = a) as <- by (cbn in E; congruence). exact (L _ _ _ eq_refl).
  - unfold Cache_model.resolve_finish in E. destruct (up q ci) as [b| |e]; try discriminate. apply K.
    destruct (m_tc b); [cbn in E; congruence|]. destruct (Cache_model.storeInCache _ _ _); [|cbn in E; congruence].
    destruct (Cache_model.mem_store _ _ _ _ _ _ _); cbn in E; congruence.
Qed.
End CACHE.

Lemma keeps_redis ipString classString typeString unpack keyPrefix shuffle now st : (forall a, m_id (shuffle a) = m_id a /\ m_question (shuffle a) = m_question a) ->
  keeps (fun up q ci => if Nat.ltb 1 (length (m_question q)) then Some (up q ci) else
    match Redis_model.redis_lookup ipString classString typeString unpack keyPrefix q now st with None => None | Some (Some (a, _)) => Some (Ans (shuffle a)) | Some None => Some (up q ci) end).
Proof.
  intros S up U q ci a N E. assert (K : forall b, up q ci = Ans b -> reply_to q b) by (apply up_reply; assumption).
  destruct (Nat.ltb _ _); [apply K; congruence|]. unfold Redis_model.redis_lookup in E.
  destruct (Redis_model.keyFromQuery _ _ _ _ _) as [k|]; [|discriminate]. destruct (Redis_model.db_get _ _ _); [|apply K; congruence].
  destruct (Redis_model.decodeCacheAnswer _ _) as [[[ts pf] b0]|]; [|apply K; congruence].
  destruct (Cache_model.ageCachedAnswer _ _ _) as [x|] eqn:G; [|apply K; congruence].
  injection E as <-. apply reply_own; [exact N|]. eapply same_trans; [exact (S x)|exact (same_age _ _ _ _ G)].
Qed.

Theorem element_keeps F : element F -> keeps F.
Proof.
  intros [ ].
  - apply keeps_ttl.
  - apply keeps_replace.
  - apply keeps_minimize.
  - apply keeps_collapse.
  - apply keeps_truncate.
  - apply keeps_modifier. assumption.
  - apply keeps_dns64.
  - apply keeps_blocklist.
  - apply keeps_client.
  - apply keeps_response_ip.
  - apply keeps_response_name.
  - apply keeps_cache. assumption.
  - apply keeps_redis. assumption.
  - apply keeps_fastest.
  - apply keeps_syslog.
  - apply keeps_query_log.
  - apply keeps_router.
  - apply keeps_rate_limiter.
  - apply keeps_dedup.
  - apply keeps_static.
  - apply keeps_template.
  - intros up U q ci a N E. discriminate.
Qed.

(** ** The validator *)
Fixpoint rets {R} (P : R -> Prop) (p : Dnssec_model.prog R) : Prop :=
  match p with
  | Dnssec_model.Ret r => P r
  | Dnssec_model.Panic => True
  | Dnssec_model.Fuel => True
  | Dnssec_model.Ask _ k => forall a, rets P (k a)
  | Dnssec_model.Now k => forall t, rets P (k t)
  | Dnssec_model.GetKeys _ k => forall x, rets P (k x)
  | Dnssec_model.PutKeys _ _ _ k => rets P k
  | Dnssec_model.GetDS _ k => forall x, rets P (k x)
  | Dnssec_model.Shuffle _ k => forall x, rets P (k x)
  end.
Lemma rets_bind {A B} (P : B -> Prop) (f : A -> Dnssec_model.prog B) p : (forall x, rets P (f x)) -> rets P (Dnssec_model.bind p f).
Proof. intros F. induction p; cbn; auto. Qed.
Lemma rets_step {R} (P : R -> Prop) W t s p s' p' : Dnssec_model.pstep W t s p s' p' -> rets P p -> rets P p'.
Proof. intros [ ]; cbn; auto. Qed.
Lemma rets_ends B ci P p r : ends B ci p r -> rets P p -> P r.
Proof. induction 1 as [r|t s s' p p' r S _ IH]; intros H; [exact H|]. apply IH. exact (rets_step _ _ _ _ _ _ _ S H). Qed.
Lemma same_strip a b c d : same (Dnssec_model.stripDNSSEC a b c d) a.
Proof. unfold Dnssec_model.stripDNSSEC. destruct b; [apply same_refl|]. destruct c; split; reflexivity. Qed.
Lemma same_upstream q : same (Dnssec_model.upstream_query q) q.
Proof. unfold Dnssec_model.upstream_query. destruct (is_edns0 q); split; reflexivity. Qed.
Lemma validator_keeps verify keyTag toDS hashName logOnly B : fair B -> fair (fun q ci a => ends B ci (Dnssec_model.resolve verify keyTag toDS hashName logOnly q) (Ans a)).
Proof.
  intros F q ci a N E. unfold Dnssec_model.resolve in E. destruct (m_question q) as [|x l] eqn:HQ; [congruence|]. rewrite <- HQ in N.
  inversion E as [|t s s' p p' r S E' P1 P2]; subst. inversion S as [q0 k b W Q1 Q2 Q3| | | | |]; subst. clear E S.
  destruct b as [b| |e].
  - assert (R : reply_to q b).
    { apply (reply_same (Dnssec_model.upstream_query q) q b b); [|destruct (same_upstream q); split; congruence|apply same_refl].
      apply (F _ ci); [|apply W; reflexivity]. destruct (same_upstream q) as [_ ->]. exact N. }
    assert (T : forall b', same b' b -> forall u v w, reply_to q (Dnssec_model.stripDNSSEC b' u v w)).
    { intros b' Sb u v w. eapply reply_same; [exact R|apply same_refl|]. eapply same_trans; [apply same_strip|exact Sb]. }
    assert (H := rets_ends B ci (fun r => forall a, r = Ans a -> reply_to q a) _ _ E'). apply H; [|reflexivity]. clear H E'.
    unfold Dnssec_model.after_answer. destruct (_ && _); [cbn; intros a' [= <-]; apply T; apply same_refl|].
    apply rets_bind. intros [[|]|]; try destruct (negb logOnly); cbn [rets]; intros a' [= <-]; try (apply T; split; reflexivity). apply reply_code.
  - exfalso. assert (H := rets_ends B ci (fun r => r = Drop) _ _ E' eq_refl). discriminate H.
  - exfalso. assert (H := rets_ends B ci (fun r => r = Err e) _ _ E' eq_refl). discriminate H.
Qed.

(** ** Groups return what they got *)
Section SEEN.
Import Groups_model.
Variable t : nat.
Definition seen (L : list gevent) (p : pc) : Prop :=
  match p with Ready _ r | Bad _ _ r | Signalling _ r | Returned r => forall a, r = Ans a -> In (Reply t r) L | _ => True end.
Lemma seen_app L l p : seen L p -> seen (L ++ l) p.
Proof. destruct p; cbn; intros H; try exact I; intros a E; apply in_or_app; left; exact (H a E). Qed.
Lemma seen_set L f u v : seen L (f t) -> (u = t -> seen L v) -> seen L (setpc f u v t).
Proof. intros A B. unfold setpc. destruct (Nat.eqb_spec t u); auto. Qed.
Lemma seen_head L n i r : (forall a, r = Ans a -> In (Reply t r) L) -> seen L (head n i r).
Proof. intros H. unfold head. destruct (Nat.ltb _ _); exact H. Qed.
Lemma seen_new L r : In (Reply t r) (L ++ [Reply t r]).
Proof. apply in_or_app. right. left. reflexivity. Qed.
Lemma seen_drop (L : list gevent) p : forall a, Drop = Ans a -> In p L. Proof. discriminate. Qed.
Lemma seen_exec {S} (step : S -> gevent -> option S) (pcs : S -> nat -> pc) :
  (forall L s e s', step s e = Some s' -> seen L (pcs s t) -> seen (L ++ [e]) (pcs s' t)) ->
  forall l L s s', exec step s l = Some s' -> seen L (pcs s t) -> seen (L ++ l) (pcs s' t).
Proof.
  intros H. induction l as [|e l IH]; intros L s s' E A; cbn in E.
  - injection E as <-. rewrite app_nil_r. exact A.
  - destruct (step s e) as [s1|] eqn:F; [|discriminate]. change (e :: l) with ([e] ++ l). rewrite app_assoc. exact (IH _ s1 s' E (H _ _ _ _ F A)).
Qed.
Ltac set_step A := cbn; apply seen_set; [apply seen_app; exact A|intros ->].
Lemma rr_seen n L s e s' : rr_step n s e = Some s' -> seen L (g_pc s t) -> seen (L ++ [e]) (g_pc s' t).
Proof.
  intros E A. destruct e; try discriminate; cbn in E; destruct (g_pc s _) eqn:P; try discriminate.
  - destruct (Nat.eqb _ _); [|discriminate]. injection E as <-. set_step A. exact I.
  - injection E as <-. set_step A. intros a _. apply seen_new.
Qed.
Lemma fr_seen n good L s e s' : fr_step n good s e = Some s' -> seen L (g_pc s t) -> seen (L ++ [e]) (g_pc s' t).
Proof.
  intros E A. destruct e; try discriminate; cbn in E; destruct (g_pc s _) eqn:P; try discriminate.
  - injection E as <-. set_step A. apply seen_head, seen_drop.
  - destruct (Nat.eqb _ _); [|discriminate]. injection E as <-. set_step A. exact I.
  - injection E as <-. set_step A. destruct (good r); intros a _; apply seen_new.
  - injection E as <-. set_step A. apply seen_head. rewrite P in A. exact (seen_app L _ (Bad i idx r) A).
Qed.
Lemma fb_seen n good reset L s e s' : fb_step n good reset s e = Some s' -> seen L (fb_pc s t) -> seen (L ++ [e]) (fb_pc s' t).
Proof.
  intros E A. destruct e; try discriminate; cbn in E.
  - destruct (fb_pc s _) eqn:P; try discriminate. injection E as <-. set_step A. apply seen_head, seen_drop.
  - destruct (fb_pc s _) eqn:P; try discriminate. destruct (Nat.eqb _ _); [|discriminate]. injection E as <-. set_step A. exact I.
  - destruct (fb_pc s _) eqn:P; try discriminate. injection E as <-. set_step A. destruct (good r); intros a _; apply seen_new.
  - destruct (fb_pc s _) eqn:P; try discriminate. destruct (_ || _); injection E as <-; set_step A.
    + apply seen_head. rewrite P in A. exact (seen_app L _ (Bad i idx r) A).
    + rewrite P in A. exact (seen_app L _ (Bad i idx r) A).
  - destruct (fb_pc s _) eqn:P; try discriminate. destruct (fb_token s); [discriminate|]. injection E as <-. set_step A.
    apply seen_head. rewrite P in A. exact (seen_app L _ (Signalling i r) A).
  - destruct (fb_timer s); try discriminate. injection E as <-. apply seen_app. exact A.
  - destruct (fb_timer s); try discriminate. destruct (Z.leb _ _); [|discriminate]. injection E as <-. apply seen_app. exact A.
  - destruct (fb_timer s), (fb_token s); try discriminate; injection E as <-; apply seen_app; exact A.
  - destruct (Z.leb _ _); [|discriminate]. injection E as <-. apply seen_app. exact A.
Qed.
Lemma rnd_seen good L s e s' : rnd_step good s e = Some s' -> seen L (r_pc s t) -> seen (L ++ [e]) (r_pc s' t).
Proof.
  intros E A. destruct e; try discriminate; cbn in E.
  - destruct (r_pc s _) eqn:P; try discriminate. injection E as <-. set_step A. intros a; discriminate.
  - destruct (r_pc s _) eqn:P; try discriminate. destruct (existsb _ _); [|discriminate]. injection E as <-. set_step A. exact I.
  - destruct (r_pc s _) eqn:P; try discriminate. injection E as <-. set_step A. destruct (good r); intros a _; apply seen_new.
  - destruct (r_pc s _) eqn:P; try discriminate. injection E as <-. set_step A. rewrite P in A. exact (seen_app L _ (Bad i idx r) A).
  - destruct (r_pc s _) eqn:P; try discriminate. destruct (r_active s); [|discriminate]. injection E as <-. set_step A. intros a; discriminate.
  - destruct (existsb _ _); [|discriminate]. injection E as <-. apply seen_app. exact A.
Qed.
Lemma group_got l a : group_run t l (Ans a) -> In (Reply t (Ans a)) l.
Proof.
  intros [n s E R|n good s E R|n good reset s E R|good rs s E R].
  - assert (H := seen_exec _ g_pc (rr_seen n) l [] g_init s E I). rewrite R in H. exact (H a eq_refl).
  - assert (H := seen_exec _ g_pc (fr_seen n good) l [] g_init s E I). rewrite R in H. exact (H a eq_refl).
  - assert (H := seen_exec _ fb_pc (fb_seen n good reset) l [] fb_init s E I). rewrite R in H. exact (H a eq_refl).
  - assert (H := seen_exec _ r_pc (rnd_seen good) l [] (rnd_init rs) s E I). rewrite R in H. exact (H a eq_refl).
Qed.
Lemma lb_got good picks up : forall fuel k rem last asked a, lb_loop good picks up fuel k rem last = Some (asked, Ans a) -> last = Ans a \/ exists k i, up k i = Ans a.
Proof.
  induction fuel as [|fuel IH]; intros k rem last asked a E; destruct rem as [|x rem]; cbn [lb_loop] in E; try discriminate.
  - left. unfold no_active in E. destruct last; congruence.
  - left. unfold no_active in E. destruct last; congruence.
  - destruct (nth_error (x :: rem) (picks k (x :: rem))) as [i|]; [|discriminate]. destruct (good (up k i)).
    + right. exists k, i. congruence.
    + destruct (lb_loop _ _ _ fuel _ _ _) as [[l' r']|] eqn:F; [|discriminate]. assert (r' = Ans a) as -> by congruence.
      destruct (IH _ _ _ _ _ F) as [U|U]; [right; exists k, i; exact U|right; exact U].
Qed.
Lemma fastest_got n : forall l s s' L, fastest_exec n s l = Some s' -> (forall a, In (Ans a) (f_chan s) \/ f_ret s = Some (Ans a) -> exists i, In (Arrive i (Ans a)) L) ->
  forall a, f_ret s' = Some (Ans a) -> exists i, In (Arrive i (Ans a)) (L ++ l).
Proof.
  induction l as [|e l IH]; intros s s' L E H a R; cbn in E.
  - injection E as <-. rewrite app_nil_r. apply H. right. exact R.
  - destruct (fastest_step n s e) as [s1|] eqn:F; [|discriminate]. change (e :: l) with ([e] ++ l). rewrite app_assoc. apply (IH s1 s' _ E); [|exact R]. clear IH E R a.
    assert (H' : forall a, In (Ans a) (f_chan s) \/ f_ret s = Some (Ans a) -> exists i, In (Arrive i (Ans a)) (L ++ [e])).
    { intros a X. destruct (H a X) as [i Y]. exists i. apply in_or_app. left. exact Y. }
    destruct e as [i|i r|]; cbn in F.
    + destruct (existsb _ _); [|discriminate]. injection F as <-. exact H'.
    + destruct (existsb _ _); [|discriminate]. injection F as <-. cbn. intros a [X|X]; [|apply H'; right; exact X].
      apply in_app_or in X as [X|[->|[]]]; [apply H'; left; exact X|]. exists i. apply in_or_app. right. left. reflexivity.
    + destruct (f_ret s) eqn:RT; [discriminate|]. destruct (f_chan s) as [|r rest] eqn:CH; [discriminate|].
      destruct (fastest_ok r); injection F as <-; cbn; intros a [X|X].
      * apply H'. left. right. exact X.
      * apply H'. left. left. congruence.
      * apply H'. left. right. exact X.
      * destruct (Nat.leb _ _); [|discriminate]. apply H'. left. left. congruence.
Qed.
End SEEN.

(** ** Configurations *)
Lemma some_fair Bs : Forall fair Bs -> fair (some_of Bs).
Proof. intros H q ci a N (B & I & R). rewrite Forall_forall in H. exact (H B I q ci a N R). Qed.
Lemma group_fair Bs : Forall fair Bs -> fair (fun q ci a => exists t l, group_run t l (Ans a) /\ forall x, In (Groups_model.Reply t (Ans x)) l -> some_of Bs q ci x).
Proof. intros H q ci a N (t & l & G & R). exact (some_fair Bs H q ci a N (R a (group_got t l a G))). Qed.
Lemma load_balance_fair good picks Bs : Forall fair Bs ->
  fair (fun q ci a => exists up asked, Groups_model.lb_resolve good picks up (length Bs) = Some (asked, Ans a) /\ forall k i x, up k i = Ans x -> some_of Bs q ci x).
Proof.
  intros H q ci a N (up & asked & L & R). destruct (lb_got good picks up _ _ _ _ _ _ L) as [|(k & i & U)]; [discriminate|]. exact (some_fair Bs H q ci a N (R k i a U)).
Qed.
Lemma fastest_fair Bs : Forall fair Bs ->
  fair (fun q ci a => exists l s, Groups_model.fastest_exec (length Bs) (Groups_model.fastest_init (length Bs)) l = Some s /\ Groups_model.f_ret s = Some (Ans a) /\
                                  forall i x, In (Groups_model.Arrive i (Ans x)) l -> some_of Bs q ci x).
Proof.
  intros H q ci a N (l & s & E & F & R). destruct (fastest_got (length Bs) l _ s [] E) with (a := a) as [i X]; [|exact F|exact (some_fair Bs H q ci a N (R i a X))].
  cbn. intros b [[]|]. discriminate.
Qed.
Theorem built_fair (leaf : answers -> Prop) : (forall B, leaf B -> fair B) -> forall B, built leaf B -> fair B.
Proof.
  intros L. fix IH 2. intros B [B' H|F B' E H|Bs H|good picks Bs H|Bs H|v k t h o B' H].
  - exact (L B' H).
  - intros q ci a N (up & W & R). exact (element_keeps F E up (faithful_within B' up (IH B' H) W) q ci a N R).
  - apply group_fair. induction H as [|C Cs HC HCs IHl]; constructor; [exact (IH C HC)|exact IHl].
  - apply load_balance_fair. induction H as [|C Cs HC HCs IHl]; constructor; [exact (IH C HC)|exact IHl].
  - apply fastest_fair. induction H as [|C Cs HC HCs IHl]; constructor; [exact (IH C HC)|exact IHl].
  - exact (validator_keeps v k t h o B' (IH B' H)).
Qed.

(** ** Clients *)
Lemma net_fair B : net_client B -> fair B.
Proof.
  intros [unpack pack answer W|]; intros q ci a N.
  - intros (conn & dials & E). exact (NetRes_proofs.doq_sound unpack pack answer conn dials q a W E).
  - intros (l & s & k & R & I & C). destruct (NetRes_proofs.pipe_sound l s k a R C) as (q' & I' & S). rewrite (Pipeline_proofs3.pipe_call l s k q q' R I I'). exact S.
Qed.

(** ** Listeners *)
Lemma same_pad base optlen q a b : Modifiers_model.padAnswer base optlen q a = Some b -> same b a.
Proof.
  unfold Modifiers_model.padAnswer. destruct (is_edns0 q) as [o|]; [|intros [= <-]; apply same_refl].
  set (a' := match is_edns0 a with None => _ | Some _ => a end). assert (S : same a' a) by (subst a'; destruct (is_edns0 a); split; reflexivity). clearbody a'.
  destruct (Modifiers_model.prepare_padding _) as [opts|]; [|discriminate].
  match goal with |- (if ?c then _ else _) = _ -> _ => destruct c | _ => idtac end; try discriminate; intros [= <-]; (eapply same_trans; [|exact S]); split; reflexivity.
Qed.
Section SERVED.
Variable up : resolver.
Hypothesis U : faithful up.
Lemma served_plain base optlen truncate id protocol allowed src tlsname req calls a : (forall n m, m_id (truncate n m) = m_id m /\ m_question (truncate n m) = m_question m) ->
  listenHandler up base optlen truncate id protocol allowed src tlsname req = (calls, Written a) -> reply_to req a.
Proof.
  intros T E. unfold listenHandler in E. destruct (m_question req) as [|x l] eqn:HQ; [discriminate|]. assert (N : m_question req <> []) by (rewrite HQ; discriminate).
  set (ci := Client src "" tlsname id) in E.
  match type of E with (match ?x with pair _ _ => _ end) = _ => destruct x as [c0 [b|]] eqn:G end; [|discriminate].
  assert (R : reply_to req b).
  { destruct (isAllowed allowed src).
    - destruct (up req ci) as [b'| |e] eqn:A; [|discriminate|].
      + assert (b' = b) as <- by congruence. exact (U req ci b' N A).
      + assert (servfail req = b) as <- by congruence. apply reply_code.
    - assert (set_rcode empty_msg req RcodeRefused = b) as <- by congruence. apply (reply_made req empty_msg). split; reflexivity. }
  match type of E with match ?x with _ => _ end = _ => destruct x as [b1|] eqn:P end; [|discriminate].
  assert (S1 : same b1 b).
  { destruct (_ || _); [exact (same_pad _ _ _ _ _ P)|]. injection P as <-. unfold Modifiers_model.stripPadding. destruct (is_edns0 b); split; reflexivity. }
  injection E as _ <-. apply (reply_same req req b); [exact R|apply same_refl|]. match goal with |- same (if ?c then _ else _) _ => destruct c end; [|exact S1]. eapply same_trans; [apply T|exact S1].
Qed.
Lemma served_doh base optlen unpack pack splitHost parseIP o b r calls out : parseAndRespond up base optlen unpack pack splitHost parseIP o b r = (calls, Body out) ->
  exists q a, unpack b = Some q /\ pack a = Some out /\ reply_to q a.
Proof.
  unfold parseAndRespond. destruct (unpack b) as [q|]; [|discriminate]. destruct (m_question q) as [|x l] eqn:HQ; [discriminate|]. assert (N : m_question q <> []) by (rewrite HQ; discriminate).
  destruct (_ && _); [discriminate|]. destruct (is_nil _); [discriminate|].
  match goal with |- (match ?x with pair _ _ => _ end) = _ -> _ => destruct x as [c0 [d|]] eqn:G end; [|discriminate].
  destruct (Modifiers_model.padAnswer _ _ _ _) as [d'|] eqn:P; [|discriminate]. destruct (pack d') as [p|] eqn:K; [|discriminate]. intros [= _ <-].
  exists q, d'. split; [reflexivity|]. split; [exact K|]. apply (reply_same q q d); [|apply same_refl|exact (same_pad _ _ _ _ _ P)].
  destruct (isAllowed _ _).
  - match type of G with (_, match up q ?ci with _ => _ end) = _ => destruct (up q ci) as [b'| |e] eqn:A end; [|discriminate|].
    + assert (b' = d) as <- by congruence. exact (U q _ b' N A).
    + assert (set_rcode empty_msg q RcodeServerFailure = d) as <- by congruence. apply (reply_made q empty_msg). split; reflexivity.
  - assert (set_rcode empty_msg q RcodeRefused = d) as <- by congruence. apply (reply_made q empty_msg). split; reflexivity.
Qed.
Lemma served_doq unpack pack ci hs data calls out : handleStream up unpack pack ci hs data = (calls, Body out) ->
  exists b q a p, read_frame data = Some b /\ unpack b = Some q /\ pack a = Some p /\ out = frame p /\ reply_to q a.
Proof.
  unfold handleStream. destruct (read_frame data) as [b|]; [|discriminate]. destruct (unpack b) as [q|] eqn:UQ; [|discriminate]. destruct (m_question q) as [|x l] eqn:HQ; [discriminate|].
  assert (N : m_question q <> []) by (rewrite HQ; discriminate). destruct (has_keepalive q); [discriminate|].
  match goal with |- match ?x with _ => _ end = _ -> _ => destruct x as [w|] end; [|discriminate].
  intros E. destruct (up q ci) as [a| |e] eqn:A; [|discriminate|].
  - destruct (pack a) as [p|] eqn:K; [|discriminate]. assert (frame p = out) as <- by congruence. exists b, q, a, p. repeat (split; [auto; fail|]). exact (U q ci a N A).
  - destruct (pack _) as [p|] eqn:K in E; [|discriminate]. assert (frame p = out) as <- by congruence. exists b, q, (set_rcode empty_msg q RcodeServerFailure), p. repeat (split; [auto; fail|]).
    apply (reply_made q empty_msg). split; reflexivity.
Qed.
End SERVED.
