(** C47: NSEC3 denial. *)
From Verif Require Import Base Bytes Name_model Name_spec Denial_model Denial_spec Denial3_proofs Denial_demo Prove_spec Own_proofs.
Local Open Scope N_scope.

(** Authentic NSEC3 records of a zone without opt-out, none of which belongs to the name itself or to a wildcard, that are accepted
    as proof of NXDOMAIN: the name does not exist, and neither does the wildcard at its closest encloser. *)
Theorem C47_nxdomain : forall hashName z c, zone_ok z -> chain_ok z c -> hash_ok hashName c ->
  forall rs q' q, Forall (authentic3 hashName z c) rs -> name_ok q' -> lname q' = q ->
  (forall r, In r rs -> N.testbit (h_flags r) 0 = false) ->
  (forall r, In r rs -> ~ owned3 hashName z c r q) -> (forall r e, In r rs -> name_ok e -> lname e = e -> ~ owned3 hashName z c r (star e)) ->
  nsec3ProvesNXDOMAIN hashName rs (show q') = true -> ~ is_node z q /\ forall e, closest z q e -> ~ is_node z (star e).
Proof. exact nxdomain_owned. Qed.
Print Assumptions C47_nxdomain.
(** With opt-out the name may be an unsigned delegation, but has no other data of its own. *)
Theorem C47_nxdomain_optout : forall hashName z c, zone_ok z -> chain_ok z c -> hash_ok hashName c ->
  forall rs q' q t, Forall (authentic3 hashName z c) rs -> name_ok q' -> lname q' = q ->
  (forall r, In r rs -> ~ owned3 hashName z c r q) ->
  nsec3ProvesNXDOMAIN hashName rs (show q') = true -> has z q t -> t = 2.
Proof. exact nxdomain_optout_owned. Qed.
Print Assumptions C47_nxdomain_optout.
(** Accepted as proof of NODATA: the zone has no records of the type, and no alias, for the name. *)
Theorem C47_nodata : forall hashName z c, zone_ok z -> chain_ok z c -> hash_ok hashName c ->
  forall rs q' q t, Forall (authentic3 hashName z c) rs -> name_ok q' -> lname q' = q ->
  (forall r, In r rs -> N.testbit (h_flags r) 0 = false) ->
  nsec3ProvesNODATA hashName rs (show q') t = true -> ~ answers z q t.
Proof. exact nodata3_sound. Qed.
Print Assumptions C47_nodata.
(** Accepted as proof that there is no DS, opt-out or not: there is none. *)
Theorem C47_nodata_ds : forall hashName z c, zone_ok z -> chain_ok z c -> hash_ok hashName c ->
  forall rs q' q, Forall (authentic3 hashName z c) rs -> name_ok q' -> lname q' = q ->
  nsec3ProvesNODATA hashName rs (show q') 43 = true -> ~ has z q 43.
Proof. exact nodata3_ds. Qed.
Print Assumptions C47_nodata_ds.

(** Which of the two is asked for depends on the rcode; no other rcode is accepted. *)
Theorem C47_denial : forall hashName z c, zone_ok z -> chain_ok z c -> hash_ok hashName c ->
  forall rs q' q t rcode, Forall (authentic3 hashName z c) rs -> name_ok q' -> lname q' = q ->
  (forall r, In r rs -> N.testbit (h_flags r) 0 = false) ->
  (forall r, In r rs -> ~ owned3 hashName z c r q) -> (forall r e, In r rs -> name_ok e -> lname e = e -> ~ owned3 hashName z c r (star e)) ->
  nsec3ProvesDenial hashName rs (show q') t rcode = true ->
  (rcode = 3 /\ ~ is_node z q /\ forall e, closest z q e -> ~ is_node z (star e)) \/ (rcode = 0 /\ ~ answers z q t).
Proof. exact denial_owned. Qed.
Print Assumptions C47_denial.

(** The records of the parent zone are also accepted as denial of names of a signed child zone. *)
Theorem C47_delegation_refuted : exists hashName parent chain child rs q, zone_ok parent /\ zone_ok child /\ chain_ok parent chain /\ hash_ok hashName chain /\
  Forall (authentic3 hashName parent chain) rs /\ (forall r, In r rs -> N.testbit (h_flags r) 0 = false) /\
  has parent (z_apex child) 43 /\ suffix (z_apex child) q /\ has child q 1 /\ nsec3ProvesNXDOMAIN hashName rs (show q) = true.
Proof. exact delegation3_refuted. Qed.
Print Assumptions C47_delegation_refuted.
(** Because the library's Cover holds of the record's own name, an existing name is denied by its own record, *)
Theorem C47_own_record_refuted : exists hashName z chain rs q, zone_ok z /\ chain_ok z chain /\ hash_ok hashName chain /\
  Forall (authentic3 hashName z chain) rs /\ (forall r, In r rs -> N.testbit (h_flags r) 0 = false) /\ has z q 1 /\ nsec3ProvesNXDOMAIN hashName rs (show q) = true.
Proof. exact cover_own_refuted. Qed.
Print Assumptions C47_own_record_refuted.
(** and a wildcard by its own. *)
Theorem C47_wildcard_record_refuted : exists hashName z chain rs q e, zone_ok z /\ chain_ok z chain /\ hash_ok hashName chain /\
  Forall (authentic3 hashName z chain) rs /\ (forall r, In r rs -> N.testbit (h_flags r) 0 = false) /\ suffix e q /\ is_node z e /\ has z (star e) 16 /\ nsec3ProvesNXDOMAIN hashName rs (show q) = true.
Proof. exact cover_wildcard_refuted. Qed.
Print Assumptions C47_wildcard_record_refuted.
(** With opt-out no proof about the wildcard is asked for. *)
Theorem C47_optout_wildcard_refuted : exists hashName z chain rs q e, zone_ok z /\ chain_ok z chain /\ hash_ok hashName chain /\
  Forall (authentic3 hashName z chain) rs /\ (forall r, In r rs -> ~ owned3 hashName z chain r (star e)) /\
  closest z q e /\ has z (star e) 16 /\ nsec3ProvesNXDOMAIN hashName rs (show q) = true.
Proof. exact optout_wildcard_owned. Qed.
Print Assumptions C47_optout_wildcard_refuted.

(** The example zone; records 4 (ex.), 6 (w.ex.) and 0 (the wildcard of w.ex.) of the seven, in the order of the hashes. *)
Example C47_zone : zone_ok ex_zone /\ chain_ok ex_zone ex_chain /\ hash_ok toy ex_chain /\ Forall (authentic3 toy ex_zone ex_chain) ex_nsec3s.
Proof. split; [exact ex_zone_ok|]. split; [exact ex_chain_ok|]. split; [apply toy_ok|exact ex_nsec3s_authentic]. Qed.
Example C47_accepted : nsec3ProvesNXDOMAIN toy (pick ex_nsec3s [4; 6]%nat) "zz.EX." = true /\ nsec3ProvesNODATA toy ex_nsec3s "A.ex." 28 = true /\
  nsec3ProvesNODATA toy ex_nsec3s "q.w.ex." 1 = true /\ nsec3ProvesNODATA toy ex_nsec3s "b.ex." 1 = true /\ nsec3ProvesNODATA toy oo_nsec3s "u.ex." 43 = true.
Proof. vm_compute. repeat split. Qed.
Example C47_hypotheses : forall r, In r (pick ex_nsec3s [4; 6]%nat) -> N.testbit (h_flags r) 0 = false /\ ~ owned3 toy ex_zone ex_chain r (nm "zz.ex.") /\
  forall e, name_ok e -> lname e = e -> ~ owned3 toy ex_zone ex_chain r (star e).
Proof. exact ex_unowned. Qed.
Example C47_rejected : nsec3ProvesNXDOMAIN toy (pick ex_nsec3s [6]%nat) "zz.ex." = false /\ nsec3ProvesNODATA toy ex_nsec3s "q.w.ex." 16 = false /\
  nsec3ProvesNODATA toy ex_nsec3s "c.ex." 43 = false /\ nsec3ProvesNXDOMAIN toy (pick ex_nsec3s [6; 0]%nat) "q.zz.ex." = false.
Proof. vm_compute. repeat split. Qed.
