(** C46: NSEC denial. *)
From Verif Require Import Base Bytes Name_model Name_spec Denial_model Denial_spec Denial_proofs Denial_demo.
Local Open Scope N_scope.

(** Authentic NSEC records of a zone that are accepted as proof of NXDOMAIN: the name owns nothing in the zone, and neither does the
    wildcard at its closest encloser. *)
Theorem C46_nxdomain : forall z, zone_ok z -> forall rs q' q, Forall (authentic z) rs -> name_ok q' -> lname q' = q -> suffix (z_apex z) q ->
  ~ is_owner z [[42]] ->
  nsecProvesNXDOMAIN rs (show q') = true -> ~ is_owner z q /\ forall e, closest z q e -> ~ is_owner z (star e).
Proof. exact nxdomain_sound. Qed.
Print Assumptions C46_nxdomain.
(** Accepted as proof of NODATA: the zone has no records of the type, and no alias, for the name. *)
Theorem C46_nodata : forall z, zone_ok z -> forall rs q' q t, Forall (authentic z) rs -> name_ok q' -> lname q' = q -> suffix (z_apex z) q ->
  ~ is_owner z [[42]] ->
  nsecProvesNODATA rs (show q') t = true -> ~ answers z q t.
Proof. exact nodata_sound. Qed.
Print Assumptions C46_nodata.

(** Which of the two is asked for depends on the rcode; no other rcode is accepted. *)
Theorem C46_denial : forall z, zone_ok z -> forall rs q' q t rcode, Forall (authentic z) rs -> name_ok q' -> lname q' = q -> suffix (z_apex z) q ->
  ~ is_owner z [[42]] -> nsecProvesDenial rs (show q') t rcode = true ->
  (rcode = 3 /\ ~ is_owner z q /\ forall e, closest z q e -> ~ is_owner z (star e)) \/ (rcode = 0 /\ ~ answers z q t).
Proof. exact denial_sound. Qed.
Print Assumptions C46_denial.

(** The records of the parent zone are also accepted as denial of names of a signed child zone, *)
Theorem C46_delegation_refuted : exists parent child rs q, zone_ok parent /\ zone_ok child /\ Forall (authentic parent) rs /\
  has parent (z_apex child) 43 /\ suffix (z_apex child) q /\ has child q 1 /\ nsecProvesNXDOMAIN rs (show q) = true.
Proof. exact delegation_refuted. Qed.
Print Assumptions C46_delegation_refuted.
(** and of the types at its apex. *)
Theorem C46_cut_nodata_refuted : exists parent child rs, zone_ok parent /\ zone_ok child /\ Forall (authentic parent) rs /\
  has parent (z_apex child) 43 /\ has child (z_apex child) 1 /\ nsecProvesNODATA rs (show (z_apex child)) 1 = true.
Proof. exact cut_nodata_refuted. Qed.
Print Assumptions C46_cut_nodata_refuted.
(** A name that exists only because of names below it is accepted as NXDOMAIN. *)
Theorem C46_empty_nonterminal_refuted : exists z rs q, zone_ok z /\ Forall (authentic z) rs /\ is_node z q /\ nsecProvesNXDOMAIN rs (show q) = true.
Proof. exact ent_refuted. Qed.
Print Assumptions C46_empty_nonterminal_refuted.
(** A wildcard at the root is not looked for. *)
Theorem C46_root_wildcard_refuted : exists z rs q e, zone_ok z /\ Forall (authentic z) rs /\ closest z q e /\ has z (star e) 16 /\ nsecProvesNXDOMAIN rs (show q) = true.
Proof. exact root_wildcard_refuted. Qed.
Print Assumptions C46_root_wildcard_refuted.

(** The example zone: zone_ok and authentic hold, denials that are accepted and denials that are not. *)
Example C46_zone : zone_ok ex_zone /\ Forall (authentic ex_zone) ex_nsecs /\ suffix (z_apex ex_zone) (nm "zz.ex.").
Proof. split; [exact ex_zone_ok|]. split; [exact ex_nsecs_authentic|]. exists [[122; 122]]. reflexivity. Qed.
Example C46_accepted : nsecProvesNXDOMAIN ex_nsecs "zz.EX." = true /\ nsecProvesNXDOMAIN ex_nsecs "x.a.ex." = true /\ nsecProvesNODATA ex_nsecs "A.ex." 28 = true /\
  nsecProvesNODATA ex_nsecs "q.w.ex." 1 = true.
Proof. vm_compute. repeat split. Qed.
Example C46_rejected : nsecProvesNXDOMAIN ex_nsecs "a.ex." = false /\ nsecProvesNXDOMAIN ex_nsecs "q.w.ex." = false /\ nsecProvesNODATA ex_nsecs "a.ex." 1 = false /\
  nsecProvesNODATA ex_nsecs "q.w.ex." 16 = false /\ nsecProvesNODATA ex_nsecs "zz.ex." 1 = false /\ nsecProvesNXDOMAIN (pick ex_nsecs [1]%nat) "zz.ex." = false.
Proof. vm_compute. repeat split. Qed.
Example C46_denial_rcodes : nsecProvesDenial ex_nsecs "zz.EX." 1 3 = true /\ nsecProvesDenial ex_nsecs "zz.EX." 1 0 = false /\
  nsecProvesDenial ex_nsecs "A.ex." 28 0 = true /\ nsecProvesDenial ex_nsecs "A.ex." 28 3 = false /\ nsecProvesDenial ex_nsecs "zz.EX." 1 2 = false.
Proof. vm_compute. repeat split. Qed.
