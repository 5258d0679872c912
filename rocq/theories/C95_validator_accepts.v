(** C95: the validating resolver accepts what is correctly signed, and lets through what is provably unsigned. *)
From Verif Require Import Base Bytes Dns Name_model Name_spec Denial_model Keystore_model Dnssec_model Dnssec_spec Dnssec_main Denial_demo Dnssec_demo Honest_spec Honest_main Honest_demo.
Local Open Scope N_scope.

(** Many queries at a time, any cryptography, any order of steps and any expiry of cached keys: under a resolver that is faithful from t0
    to T, an answer or a denial that is signed by secure zones is passed on with AD set. The anchors last for 2^32-1 seconds. *)
Theorem C95_signed : forall verify keyTag toDS hashName anchors W t0 T tr secure, faithful verify keyTag toDS anchors W t0 T tr secure -> T <= t0 + 4294967295 ->
  forall logOnly qs st i q out, steps W (start anchors t0 (map (resolve verify keyTag toDS hashName logOnly) qs)) st -> s_time st <= T -> nth_error qs i = Some q ->
  (forall r, W (upstream_query q) r -> exists a, r = Ans a /\ (signed_answer verify keyTag t0 T tr secure a \/ signed_denial verify keyTag hashName t0 T tr secure a)) ->
  nth_error (s_threads st) i = Some (Ret out) ->
  exists qu a, head (m_question q) = Some qu /\ W (upstream_query q) (Ans a) /\ out = Ans (stripDNSSEC (set_ad true a) (set_do q) (had_edns0 q) (q_type qu)).
Proof. exact signed_accepted. Qed.
Print Assumptions C95_signed.
(** Answers and denials from unsigned zones, below a signed statement that there is no DS record, are passed on as they are. *)
Theorem C95_unsigned : forall verify keyTag toDS hashName anchors W t0 T tr secure, faithful verify keyTag toDS anchors W t0 T tr secure -> T <= t0 + 4294967295 ->
  forall logOnly qs st i q out, steps W (start anchors t0 (map (resolve verify keyTag toDS hashName logOnly) qs)) st -> s_time st <= T -> nth_error qs i = Some q ->
  (forall r, W (upstream_query q) r -> exists a, r = Ans a /\ (unsigned_answer verify keyTag hashName W t0 T tr secure a \/ unsigned_denial verify keyTag hashName W t0 T tr secure a)) ->
  nth_error (s_threads st) i = Some (Ret out) ->
  exists qu a, head (m_question q) = Some qu /\ W (upstream_query q) (Ans a) /\ out = Ans (stripDNSSEC a (set_do q) (had_edns0 q) (q_type qu)).
Proof. exact unsigned_accepted. Qed.
Print Assumptions C95_unsigned.
(** The keys of secure zones are found. *)
Theorem C95_keys : forall verify keyTag toDS hashName anchors W t0 T tr secure, faithful verify keyTag toDS anchors W t0 T tr secure -> T <= t0 + 4294967295 ->
  forall zones st i zone n r, steps W (start anchors t0 (map (buildChainOfTrust verify keyTag toDS hashName) zones)) st -> s_time st <= T -> nth_error zones i = Some zone -> names zone n -> secure n ->
  nth_error (s_threads st) i = Some (Ret r) -> r = inr (t_zsk tr n, t_ksk tr n).
Proof. exact keys_found. Qed.
Print Assumptions C95_keys.
(** From every state on, a query can be brought to its end. *)
Theorem C95_ends : forall verify keyTag toDS hashName anchors (W : msg -> result -> Prop) logOnly t0 qs st i q, (forall u, exists r, W u r) -> (forall u, ~ W u Drop) -> (forall x, In x qs -> m_question x <> []) ->
  steps W (start anchors t0 (map (resolve verify keyTag toDS hashName logOnly) qs)) st -> nth_error qs i = Some q ->
  exists st' out, steps W st st' /\ s_time st' = s_time st /\ nth_error (s_threads st') i = Some (Ret out).
Proof. exact queries_end. Qed.
Print Assumptions C95_ends.

(** A signed zone two labels below the zone that has the DS records for it: SERVFAIL. *)
Theorem C95_skip_refuted : exists verify keyTag toDS hashName anchors W t0 T tr secure l1 l2 n q st m,
  faithful verify keyTag toDS anchors W t0 T tr secure /\ secure n /\ serves_ds verify keyTag W t0 T tr (l1 :: l2 :: n) n /\ serves_keys verify keyTag toDS anchors W t0 T tr (l1 :: l2 :: n) /\
  (forall r, W (upstream_query q) r -> exists a, r = Ans a /\ signed_answer verify keyTag t0 T tr (fun z => secure z \/ z = l1 :: l2 :: n) a) /\
  steps W (start anchors t0 [resolve verify keyTag toDS hashName false q]) st /\ t0 <= s_time st /\ s_time st <= T /\ s_threads st = [Ret (Ans m)] /\ m_rcode m = 2.
Proof. exact skip_refuted. Qed.
Print Assumptions C95_skip_refuted.
(** A zone with a key that is revoked, or has other flags than 256 and 257, and a signature for all of its keys: SERVFAIL. *)
Theorem C95_revoked_refuted : exists verify keyTag toDS hashName anchors W t0 T tr secure l n q st m,
  faithful verify keyTag toDS anchors W t0 T tr secure /\ secure n /\ serves_ds verify keyTag W t0 T tr (l :: n) n /\
  (forall u r, asks_for (l :: n) 48 u -> W u r -> exists a k sig signer kp ka kd,
    r = Ans a /\ m_rcode a = 0 /\ In sig (m_answer a) /\ covers sig 48 signer /\ names signer (l :: n) /\ In k (m_answer a) /\ rr_data k = DDNSKEY 257 kp ka kd /\ identified toDS anchors tr (l :: n) k /\
    lasting verify keyTag t0 T [k] (filter (fun x => rr_type x =? 48) (m_answer a)) sig /\ filter (flagged 256) (m_answer a) = t_zsk tr (l :: n)) /\
  (forall r, W (upstream_query q) r -> exists a, r = Ans a /\ signed_answer verify keyTag t0 T tr (fun z => secure z \/ z = l :: n) a) /\
  steps W (start anchors t0 [resolve verify keyTag toDS hashName false q]) st /\ t0 <= s_time st /\ s_time st <= T /\ s_threads st = [Ret (Ans m)] /\ m_rcode m = 2.
Proof. exact revoked_refuted. Qed.
Print Assumptions C95_revoked_refuted.

Example C95_faithful : faithful (tverify htb) ttag tds root_anchor (the hworld) 1500 2000 htree hsecure.
Proof. exact hfaithful. Qed.
Example C95_answer : forall r, the hworld (upstream_query (query "www.victim.com." 1)) r -> exists a, r = Ans a /\ signed_answer (tverify htb) ttag 1500 2000 htree hsecure a.
Proof. exact www_signed. Qed.
Example C95_denial : forall r, the hworld (upstream_query (query "www.victim.com." 28)) r -> exists a, r = Ans a /\ signed_denial (tverify htb) ttag thash 1500 2000 htree hsecure a.
Proof. exact nodata_signed. Qed.
Example C95_plain : forall r, the hworld (upstream_query (query "www.plain.com." 1)) r -> exists a, r = Ans a /\ unsigned_answer (tverify htb) ttag thash (the hworld) 1500 2000 htree hsecure a.
Proof. exact www_unsigned. Qed.
Example C95_gone : forall r, the hworld (upstream_query (query "gone.plain.com." 1)) r -> exists a, r = Ans a /\ unsigned_denial (tverify htb) ttag thash (the hworld) 1500 2000 htree hsecure a.
Proof. exact gone_unsigned. Qed.
Example C95_replies : hreply (query "www.victim.com." 1) = Some (0, true, [arec "www.victim.com."], []) /\ hreply (query "www.victim.com." 28) = Some (0, true, [], []) /\
  hreply (query "www.plain.com." 1) = Some (0, false, [arec "www.plain.com."], []) /\ hreply (query "gone.plain.com." 1) = Some (3, false, [], []).
Proof. repeat split; vm_compute; reflexivity. Qed.
Example C95_asked : (forall u, exists r, the hworld u r) /\ (forall u, ~ the hworld u Drop).
Proof. split; [intros u; eexists; reflexivity|apply hfaithful]. Qed.
