(** C45: unsigned answers are passed on only with a proof that a zone on the way is unsigned. *)
From Verif Require Import Base Bytes Dns Name_model Name_spec Denial_model Denial_spec Denial_proofs Denial3_proofs Keystore_model Dnssec_model Dnssec_spec Dnssec_main Denial_demo Dnssec_demo.
Local Open Scope N_scope.

(** The validator's verdict "insecure": the question of an empty answer, or a record of the answer, is in a zone proven unsigned. *)
Theorem C45_insecure : forall verify keyTag toDS hashName anchors W t0 answers st i a,
  steps W (start anchors t0 (map (validate verify keyTag toDS hashName) answers)) st ->
  nth_error answers i = Some a -> message_ok a -> nth_error (s_threads st) i = Some (Ret (Some Insecure)) ->
  proven_unsigned verify keyTag toDS hashName anchors a (s_time st).
Proof. exact insecure_run. Qed.
Print Assumptions C45_insecure.
(** The same for a name *)
Theorem C45_delegation : forall verify keyTag toDS hashName anchors W t0 ns st i s n,
  steps W (start anchors t0 (map (checkInsecureDelegation verify keyTag toDS hashName) ns)) st ->
  nth_error ns i = Some s -> names s n -> no_dots n -> nth_error (s_threads st) i = Some (Ret (Some Insecure)) -> unsigned verify keyTag toDS hashName anchors n (s_time st).
Proof. exact check_run. Qed.
Print Assumptions C45_delegation.
(** What the denial of DS records means, for authentic NSEC records of the parent zone: the name is a delegation without DS, *)
Theorem C45_nsec : forall z, zone_ok z -> forall r q, authentic z r -> name_ok q -> lname q = q -> nsecDeniesDS r (show q) = true -> has z q 2 /\ ~ has z q 43 /\ ~ has z q 6.
Proof. exact ds_denial_sound. Qed.
Print Assumptions C45_nsec.
(** and for NSEC3 records: it has no DS. *)
Theorem C45_nsec3 : forall hashName z c, zone_ok z -> chain_ok z c -> hash_ok hashName c -> forall r q, authentic3 hashName z c r -> name_ok q -> lname q = q -> nsec3DeniesDS hashName r (show q) = true -> ~ has z q 43.
Proof. exact ds_denial3_sound. Qed.
Print Assumptions C45_nsec3.

(** One record from an unsigned zone is enough for the whole answer: here a forged record is passed on although nothing at or above its
    name was ever proven unsigned. *)
Theorem C45_mixed_refuted : exists verify keyTag toDS hashName W anchors t0 st q m r n,
  steps W (start anchors t0 [resolve verify keyTag toDS hashName false q]) st /\ s_threads st = [Ret (Ans m)] /\
  m_rcode m = 0 /\ In r (m_answer m) /\ names (rr_name r) n /\ never_signed verify r /\ forall T, ~ unsigned verify keyTag toDS hashName anchors n T.
Proof. exact mixed_refuted. Qed.
Print Assumptions C45_mixed_refuted.

(** An answer from an unsigned zone, accepted with proof; an answer with its signatures removed is not. *)
Example C45_plain : outcome honest (validate (tverify tb) ttag tds thash (resp 0 [arec "www.plain.com."] [])) = Ret (Some Insecure) /\ message_ok (resp 0 [arec "www.plain.com."] []).
Proof. split; [vm_compute; reflexivity|]. apply message_okb_ok. vm_compute. reflexivity. Qed.
Example C45_stripped : outcome honest (validate (tverify tb) ttag tds thash (resp 0 [arec "www.victim.com."] [])) = Ret (Some Bogus).
Proof. vm_compute. reflexivity. Qed.
(** A zone with an unsigned delegation, and authentic NSEC and NSEC3 records that deny its DS records *)
Definition zone1 : zone := Zone (nm "ex.") [ (nm "ex.", [2; 6]); (nm "d.ex.", [2]) ]%string.
Definition chain1 : chain3 := Chain3 1 0 ""%string [ nm "d.ex."; nm "ex." ]%string.
Example C45_zone : zone_ok zone1 /\ authentic zone1 (mk_nsec (nm "d.ex.") (nm "ex.") [2]) /\ nsecDeniesDS (mk_nsec (nm "d.ex.") (nm "ex.") [2]) (show (nm "d.ex.")) = true.
Proof.
  assert (Z : zone_ok zone1) by (apply zone_okb_ok; vm_compute; reflexivity). split; [exact Z|]. split; [|vm_compute; reflexivity]. apply (nsec_okb_ok zone1 _ _ _ Z). vm_compute. reflexivity.
Qed.
Example C45_zone3 : chain_ok zone1 chain1 /\ hash_ok toy chain1 /\ Forall (authentic3 toy zone1 chain1) (chain_recs zone1 chain1 0) /\
  existsb (fun r => nsec3DeniesDS toy r (show (nm "d.ex."))) (chain_recs zone1 chain1 0) = true.
Proof.
  split; [apply chain_okb_ok; vm_compute; reflexivity|]. split; [apply toy_ok|]. split; [apply chain_recs_ok; [apply zone_okb_ok|]|]; vm_compute; reflexivity.
Qed.
