(** C96: complete NSEC and NSEC3 proofs that there is no answer are accepted. *)
From Verif Require Import Base Bytes Dns Name_model Name_spec Denial_model Denial_spec Denial_demo Keystore_model Dnssec_model Dnssec_spec Dnssec_main Dnssec_demo Honest_spec Honest_demo
  Prove_spec Prove_proofs Prove_demo.
Local Open Scope N_scope.

(** Any zone and any list of its NSEC records, in any order and with any others of them, that has the records for the name in it *)
Theorem C96_nsec : forall z, zone_ok z -> forall rs q' q t rcode, Forall (authentic z) rs -> name_ok q' -> lname q' = q -> suffix (z_apex z) q ->
  nsec_proof z rs q t rcode -> nsecProvesDenial rs (show q') t rcode = true.
Proof. exact denial_complete. Qed.
Print Assumptions C96_nsec.
(** The same with NSEC3, with and without opt-out, in every zone but the root *)
Theorem C96_nsec3 : forall hashName z c, zone_ok z -> chain_ok z c -> hash_ok hashName c -> z_apex z <> [] ->
  forall rs q' q t rcode, Forall (authentic3 hashName z c) rs -> name_ok q' -> lname q' = q -> suffix (z_apex z) q ->
  nsec3_proof hashName z c rs q t rcode -> nsec3ProvesDenial hashName rs (show q') t rcode = true.
Proof. exact denial3_complete. Qed.
Print Assumptions C96_nsec3.
(** The validating resolver passes such a denial on with AD set if the records are signed by secure zones. *)
Theorem C96_accepted : forall verify keyTag toDS hashName anchors W t0 T tr secure, faithful verify keyTag toDS anchors W t0 T tr secure -> T <= t0 + 4294967295 ->
  forall logOnly qs st i q out, steps W (start anchors t0 (map (resolve verify keyTag toDS hashName logOnly) qs)) st -> s_time st <= T -> nth_error qs i = Some q ->
  (forall r, W (upstream_query q) r -> exists a z c, r = Ans a /\ denial_of verify keyTag hashName t0 T tr secure a z c) ->
  nth_error (s_threads st) i = Some (Ret out) ->
  exists qu a, head (m_question q) = Some qu /\ W (upstream_query q) (Ans a) /\ out = Ans (stripDNSSEC (set_ad true a) (set_do q) (had_edns0 q) (q_type qu)).
Proof. exact denials_accepted. Qed.
Print Assumptions C96_accepted.

(** With NSEC, no proof is accepted for a name that exists only because of a name below it, not even with all records of the zone. *)
Theorem C96_ent_refuted : exists z rs q t, zone_ok z /\ Forall (authentic z) rs /\ suffix (z_apex z) q /\ (forall o ts, In (o, ts) (z_data z) -> exists r, In r rs /\ names (n_owner r) o) /\
  (exists r nx, In r rs /\ spans z r q /\ names (n_next r) nx /\ suffix q nx) /\ ~ answers z q t /\ nsecProvesNODATA rs (show q) t = false.
Proof. exact ent_refused. Qed.
Print Assumptions C96_ent_refuted.
(** With opt-out, the proof that an unsigned delegation has no DS record is refused if a name between it and its closest encloser is left out of the chain too. *)
Theorem C96_optout_refuted : exists hashName z c rs q l e, zone_ok z /\ chain_ok z c /\ hash_ok hashName c /\ Forall (authentic3 hashName z c) rs /\ suffix (z_apex z) q /\
  has z q 2 /\ ~ has z q 43 /\ provable c q l e /\ (exists r, In r rs /\ owned3 hashName z c r e) /\ (exists r, In r rs /\ N.testbit (h_flags r) 0 = true /\ spans3 hashName z c r (l :: e)) /\
  nsec3ProvesNODATA hashName rs (show q) 43 = false.
Proof. exact optout_refused. Qed.
Print Assumptions C96_optout_refuted.

Example C96_ex_nsec : zone_ok ex_zone /\ Forall (authentic ex_zone) ex_nsecs /\ nsec_proof ex_zone zz_nsecs (nm "zz.ex.") 1 3 /\ nsec_proof ex_zone (pick ex_nsecs [1]%nat) (nm "a.ex.") 28 0 /\
  nsec_proof ex_zone (pick ex_nsecs [5]%nat) (nm "q.w.ex.") 1 0 /\ zone_ok tld_zone /\ Forall (authentic tld_zone) tld_nsecs /\ nsec_proof tld_zone tld_nsecs (nm "www.local.") 1 3.
Proof. exact (conj ex_zone_ok (conj ex_nsecs_authentic (conj zz_proof (conj a_proof (conj q_proof (conj tld_zone_ok (conj tld_authentic tld_proof))))))). Qed.
Example C96_ex_nsec3 : nsec3_proof toy ex_zone ex_chain (pick ex_nsec3s [4; 6]%nat) (nm "zz.ex.") 1 3 /\ nsec3_proof toy ex_zone ex_chain (pick ex_nsec3s [0; 5; 6]%nat) (nm "q.w.ex.") 1 0 /\
  nsec3_proof toy ex_zone ex_chain (pick ex_nsec3s [2]%nat) (nm "b.ex.") 1 0 /\ nsec3_proof toy oo_zone oo_chain oo_nsec3s (nm "u.ex.") 43 0.
Proof. exact (conj zz_proof3 (conj q_proof3 (conj b_proof3 u_proof3))). Qed.
(** The chains, the hashes and the records are as required. *)
Example C96_ex_chains : (chain_ok ex_zone ex_chain /\ hash_ok toy ex_chain /\ Forall (authentic3 toy ex_zone ex_chain) ex_nsec3s) /\
  (zone_ok oo_zone /\ chain_ok oo_zone oo_chain /\ hash_ok toy oo_chain /\ Forall (authentic3 toy oo_zone oo_chain) oo_nsec3s).
Proof. exact (conj (conj ex_chain_ok (conj (toy_ok _) ex_nsec3s_authentic)) (conj oo_zone_ok (conj oo_chain_ok (conj (toy_ok _) oo_nsec3s_authentic)))). Qed.
(** The reply in the example of C95 is such a denial. *)
Example C96_ex_reply : faithful hv ttag tds root_anchor (the hworld) 1500 2000 htree hsecure /\
  forall r, the hworld (upstream_query (query "www.victim.com." 28)) r -> exists a z c, r = Ans a /\ denial_of hv ttag thash 1500 2000 htree hsecure a z c.
Proof. exact (conj hfaithful nodata_denial). Qed.
Example C96_ex_accepted : nsecProvesDenial zz_nsecs "ZZ.ex." 1 3 = true /\ nsecProvesDenial tld_nsecs "www.local." 1 3 = true /\ nsec3ProvesDenial toy (pick ex_nsec3s [6; 4]%nat) "zz.Ex." 1 3 = true /\
  nsecProvesDenial (pick ex_nsecs [5]%nat) "zz.ex." 1 3 = false.
Proof. vm_compute. repeat split. Qed.
