(** C97: an attacker who answers all queries of the validator, and has all keys but those of the zones above a name, can neither forge the records of
    the name nor pass them as unsigned. *)
From Verif Require Import Base Bytes Dns Name_model Name_spec Denial_model Denial_spec Denial_demo Keystore_model Dnssec_model Dnssec_spec Dnssec_main Dnssec_demo Forge_spec Forge_proofs Forge_demo.
Open Scope N_scope.

(** W is what the attacker may answer: any relation. The keys accepted for a zone are keys of the zone. *)
Theorem C97_keys : forall verify keyTag toDS hashName anchors real made, unforgeable verify real made -> disciplined real made -> anchored toDS anchors real ->
  forall W t0 zones st i zone n zsk ksk, steps W (start anchors t0 (map (buildChainOfTrust verify keyTag toDS hashName) zones)) st ->
  nth_error zones i = Some zone -> names zone n -> no_dots n -> nth_error (s_threads st) i = Some (Ret (inr (zsk, ksk))) ->
  guarded toDS real made n -> Forall (real n) (zsk ++ ksk).
Proof. exact keys_real. Qed.
Print Assumptions C97_keys.
(** The client gets a reply with another rcode, SERVFAIL, what the zones have signed, or what is below an unsigned delegation. *)
Theorem C97_reply : forall verify keyTag toDS hashName anchors real made content chain_of,
  unforgeable verify real made -> disciplined real made -> anchored toDS anchors real -> truthful hashName made content chain_of ->
  forall W t0 qs st i q m, steps W (start anchors t0 (map (resolve verify keyTag toDS hashName false) qs)) st ->
  nth_error qs i = Some q -> nth_error (s_threads st) i = Some (Ret (Ans m)) ->
  exists qu a, head (m_question q) = Some qu /\ W (upstream_query q) (Ans a) /\
   (message_ok a ->
     (m_rcode a <> 0 /\ m_rcode a <> 3 /\ m = stripDNSSEC a (set_do q) (had_edns0 q) (q_type qu)) \/ m = servfail q \/
     (genuine toDS hashName real made a (s_time st) /\ m = stripDNSSEC (set_ad true a) (set_do q) (had_edns0 q) (q_type qu)) \/
     (from_unsigned toDS real made content chain_of a /\ m = stripDNSSEC a (set_do q) (had_edns0 q) (q_type qu))).
Proof. exact reply_genuine. Qed.
Print Assumptions C97_reply.
(** No downgrade: about names without an unsigned delegation above them, the client gets SERVFAIL or what the zones have signed. *)
Theorem C97_no_downgrade : forall verify keyTag toDS hashName anchors real made content chain_of,
  unforgeable verify real made -> disciplined real made -> anchored toDS anchors real -> truthful hashName made content chain_of ->
  forall W t0 qs st i q m, steps W (start anchors t0 (map (resolve verify keyTag toDS hashName false) qs)) st ->
  nth_error qs i = Some q -> nth_error (s_threads st) i = Some (Ret (Ans m)) ->
  (forall a, W (upstream_query q) (Ans a) -> message_ok a /\ (m_rcode a = 0 \/ m_rcode a = 3) /\
     forall n, about a n -> guarded toDS real made n /\ ~ unsigned_below made content chain_of n) ->
  exists qu a, head (m_question q) = Some qu /\ W (upstream_query q) (Ans a) /\
   (m = servfail q \/ (genuine toDS hashName real made a (s_time st) /\ m = stripDNSSEC (set_ad true a) (set_do q) (had_edns0 q) (q_type qu))).
Proof. exact no_downgrade. Qed.
Print Assumptions C97_no_downgrade.
(** What is denied by NSEC records of one zone is not in the zone. *)
Theorem C97_denial : forall toDS hashName real made content chain_of a T q n z,
  truthful hashName made content chain_of -> zone_ok (content z) -> head (m_question a) = Some q -> names (q_name q) n -> guarded toDS real made n ->
  m_answer a = [] -> genuine toDS hashName real made a T -> (forall r, In r (m_ns a) -> as_nsec3 r = []) ->
  (forall m sig set r, In r (m_ns a) -> suffix m n -> made m sig set -> In r set -> as_nsec r <> [] -> m = z) ->
  suffix (z_apex (content z)) n -> ~ is_owner (content z) [[42]] ->
  (m_rcode a = 3 /\ ~ is_owner (content z) n /\ forall e, closest (content z) n e -> ~ is_owner (content z) (star e)) \/
  (m_rcode a = 0 /\ ~ answers (content z) n (q_type q)).
Proof. exact denial_true. Qed.
Print Assumptions C97_denial.
(** Without [guarded] it is false, even if all DS records signed for the zone are of its keys: those of its siblings are accepted. *)
Theorem C97_sibling_refuted : exists verify keyTag toDS hashName anchors real made content chain_of W t0 q st m r n,
  unforgeable verify real made /\ disciplined real made /\ anchored toDS anchors real /\ truthful hashName made content chain_of /\
  steps W (start anchors t0 (map (resolve verify keyTag toDS hashName false) [q])) st /\ nth_error (s_threads st) 0 = Some (Ret (Ans m)) /\ m_ad m = true /\ m_answer m = [r] /\
  (forall z sig set, made z sig set -> ~ In r set) /\ names "victim.com." n /\
  (forall z sig set d tag alg dt dg k, made z sig set -> In d set -> rr_name d = "victim.com."%string -> rr_data d = DDS tag alg dt dg -> digest_of toDS k dt dg -> real n k).
Proof. exact sibling. Qed.
Print Assumptions C97_sibling_refuted.

(** The zones of the example keep to the rules, and all names are guarded. *)
Example C97_zones : unforgeable (fverify ftb) freal (fmade ftb) /\ disciplined freal (fmade ftb) /\ anchored fds root_anchor freal /\
  truthful thash (fmade ftb) fcontent fchain /\ forall n, guarded fds freal (fmade ftb) n.
Proof. split; [apply f_unforgeable|]. split; [exact ftb_disciplined|]. split; [exact f_anchored|]. split; [exact ftb_truthful|exact ftb_guarded]. Qed.
(** The keys of victim.com. are accepted, its record too; the forged one is not, with or without signature. *)
Example C97_chain : outcome honest (buildChainOfTrust (fverify ftb) ttag fds thash "victim.com.") = Ret (inr ([zsk "victim.com." "zv"], [ksk "victim.com." "kv"])).
Proof. vm_compute. reflexivity. Qed.
Example C97_true : freply ftb honest (query "www.victim.com." 1) = Some (0, true, [arec "www.victim.com."]).
Proof. exact true_accepted. Qed.
Example C97_forged : freply ftb sworld (query "www.victim.com." 1) = Some (2, false, []).
Proof. exact forged_refused. Qed.
Example C97_stripped : freply ftb (("www.victim.com."%string, 1, resp 0 [forged] []) :: honest) (query "www.victim.com." 1) = Some (2, false, []).
Proof. exact stripped_refused. Qed.
(** The hypothesis of C97_no_downgrade holds of the attacker's answers, *)
Example C97_attack : forall a, the sworld (upstream_query (query "www.victim.com." 1)) (Ans a) -> message_ok a /\ (m_rcode a = 0 \/ m_rcode a = 3) /\
  forall n, about a n -> guarded fds freal (fmade ftb) n /\ ~ unsigned_below (fmade ftb) fcontent fchain n.
Proof. exact forged_about. Qed.
(** and that of C97_denial of the answer to a query for another type. *)
Example C97_nodata : freply ftb honest (query "www.victim.com." 28) = Some (0, true, []).
Proof. exact nodata_reply97. Qed.
Example C97_nodata_one : forall a, the honest (upstream_query (query "www.victim.com." 28)) (Ans a) -> message_ok a /\ m_answer a = [] /\ (forall r, In r (m_ns a) -> as_nsec3 r = []) /\
  (forall m sig set r, In r (m_ns a) -> suffix m (zn "www.victim.com.") -> fmade ftb m sig set -> In r set -> as_nsec r <> [] -> m = zn "victim.com.").
Proof. exact nodata_one. Qed.
