(** C44: keys are accepted only by a chain of signatures from a trust anchor. *)
From Verif Require Import Base Bytes Dns Name_model Name_spec Keystore_model Dnssec_model Dnssec_spec Dnssec_main Denial_demo Dnssec_demo.
Local Open Scope N_scope.

(** Many zones at a time, any answers of the resolver, any cryptography: the keys that are accepted for a zone are trusted. *)
Theorem C44_chain : forall verify keyTag toDS hashName anchors W t0 zones st i zone n zsk ksk,
  steps W (start anchors t0 (map (buildChainOfTrust verify keyTag toDS hashName) zones)) st ->
  nth_error zones i = Some zone -> names zone n -> no_dots n -> nth_error (s_threads st) i = Some (Ret (inr (zsk, ksk))) ->
  trusted verify keyTag toDS anchors n zsk ksk (s_time st).
Proof. exact chain_run. Qed.
Print Assumptions C44_chain.
(** The keys in the store are trusted, whatever was asked for. *)
Theorem C44_store : forall verify keyTag toDS hashName anchors W logOnly t0 qs st zone n zsk ksk,
  steps W (start anchors t0 (map (resolve verify keyTag toDS hashName logOnly) qs)) st -> names zone n -> no_dots n ->
  getDNSKEY (s_store st) (s_time st) zone = (zsk, ksk) -> zsk <> [] \/ ksk <> [] -> trusted verify keyTag toDS anchors n zsk ksk (s_time st).
Proof. exact resolve_store. Qed.
Print Assumptions C44_store.
(** The store returns the last keys added for the zone, up to the smallest of their TTLs. *)
Theorem C44_cache : forall ops now zone zsk ksk, getDNSKEY (run_ops ops) now zone = (zsk, ksk) -> zsk <> [] \/ ksk <> [] ->
  exists before t z ks after, ops = before ++ Put t z ks :: after /\ canonicalName z = canonicalName zone /\
    (forall t' z' ks', In (Put t' z' ks') after -> canonicalName z' <> canonicalName zone) /\
    (forall k, In k ks -> now <= t + rr_ttl k) /\ zsk = filter (flagged 256) ks /\ ksk = filter (flagged 257) ks.
Proof. exact cached_flagged. Qed.
Print Assumptions C44_cache.
(** The recursion towards the root ends: the bound of the model is never reached. *)
Theorem C44_depth : forall verify keyTag toDS hashName anchors W logOnly t0 qs st i,
  steps W (start anchors t0 (map (resolve verify keyTag toDS hashName logOnly) qs)) st -> nth_error (s_threads st) i <> Some Fuel.
Proof. exact resolve_total. Qed.
Print Assumptions C44_depth.
(** Without an anchor for the root nothing is trusted: anchors for other zones are not used. *)
Theorem C44_root_anchor : forall verify keyTag toDS anchors n zsk ksk T, trusted verify keyTag toDS anchors n zsk ksk T -> exists a, In a anchors /\ canonicalName (a_owner a) = "."%string.
Proof. exact trusted_anchor. Qed.
Print Assumptions C44_root_anchor.

(** The owner of DS records is not compared with the zone: here every DS record that was ever signed for the zone is for other keys. *)
Theorem C44_ds_owner_refuted : exists verify keyTag toDS hashName W anchors t0 st zsk ksk,
  steps W (start anchors t0 [buildChainOfTrust verify keyTag toDS hashName "victim.com."%string]) st /\ s_threads st = [Ret (inr (zsk, ksk))] /\ zsk <> [] /\
  forall sig k rrset d tag alg dt digest, verify sig k rrset = true -> In d rrset -> rr_name d = "victim.com."%string -> rr_data d = DDS tag alg dt digest ->
  forall key, In key ksk -> toDS key dt <> Some digest.
Proof. exact ds_owner_refuted. Qed.
Print Assumptions C44_ds_owner_refuted.
(** The parent of a zone is what follows the first dot, even if that is part of a label: here com. never signed a DS record for the zone. *)
Theorem C44_escaped_refuted : exists verify keyTag toDS hashName W anchors t0 st zone label zsk ksk,
  name_ok [label; [99; 111; 109]] /\ zone = show [label; [99; 111; 109]] /\
  steps W (start anchors t0 [buildChainOfTrust verify keyTag toDS hashName zone]) st /\ s_threads st = [Ret (inr (zsk, ksk))] /\ zsk <> [] /\
  forall sig k rrset d, verify sig k rrset = true -> In d rrset -> rr_name d = zone -> rr_type d = 43 -> rr_name k <> "com."%string.
Proof. exact escaped_refuted. Qed.
Print Assumptions C44_escaped_refuted.
(** Cached keys are used when all signatures have expired. *)
Theorem C44_expired_refuted : exists verify keyTag toDS hashName W anchors t0 st zone zsk ksk,
  steps W (start anchors t0 [buildChainOfTrust verify keyTag toDS hashName zone; buildChainOfTrust verify keyTag toDS hashName zone]) st /\
  nth_error (s_threads st) 1 = Some (buildChainOfTrust verify keyTag toDS hashName zone) /\
  (exists st', steps W st st' /\ nth_error (s_threads st') 1 = Some (Ret (inr (zsk, ksk)))) /\ zsk <> [] /\
  forall sig k rrset cov alg lab ottl expiration inception tag signer data, verify sig k rrset = true -> rr_data sig = DRRSIG cov alg lab ottl expiration inception tag signer data ->
  expiration < s_time st.
Proof. exact expired_refuted. Qed.
Print Assumptions C44_expired_refuted.

Example C44_names : names "Victim.com." (nm "victim.com.") /\ no_dots (nm "victim.com.").
Proof. apply (nameb_ok "Victim.com."). vm_compute. reflexivity. Qed.
Example C44_run : exists st, steps (the honest) (start root_anchor 1500 [tchain "Victim.com"]) st /\ s_threads st = [Ret (inr ([zsk "victim.com." "zv"], [ksk "victim.com." "kv"]))] /\ s_time st = 1500.
Proof. exact (outcome_steps _ _ _ honest_chain). Qed.
Example C44_trusted : trusted (tverify tb) ttag tds root_anchor (nm "victim.com.") [zsk "victim.com." "zv"] [ksk "victim.com." "kv"] 1500.
Proof.
  destruct (outcome_steps honest (tchain "Victim.com.") (Ret (inr ([zsk "victim.com." "zv"], [ksk "victim.com." "kv"])))) as (st & S & T & E); [vm_compute; reflexivity|]. rewrite <- E.
  apply (C44_chain _ _ _ _ _ _ _ ["Victim.com."%string] st 0 "Victim.com." _ _ _ S); [reflexivity|apply C44_names|apply C44_names|]. rewrite T. reflexivity.
Qed.
