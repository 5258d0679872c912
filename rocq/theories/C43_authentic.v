(** C43: the validating resolver decides on the authenticity of an answer before it is returned. *)
From Verif Require Import Base Bytes Dns Name_model Name_spec Keystore_model Dnssec_model Dnssec_spec Dnssec_main Dnssec_total Denial_demo Dnssec_demo.
From Verif Require Listener_spec Listener_proofs.
Local Open Scope N_scope.

(** Many queries at a time, any cryptography, any answers W of the resolver: each answer is that of the resolver marked as authenticated
    and is validated, or it is that of the resolver unmarked and proven to be from an unsigned zone, or it is SERVFAIL, or validation is
    for logging only; answers other than NOERROR and NXDOMAIN are not looked at. *)
Theorem C43_verdict : forall verify keyTag toDS hashName anchors W logOnly t0 qs st i q m,
  steps W (start anchors t0 (map (resolve verify keyTag toDS hashName logOnly) qs)) st ->
  nth_error qs i = Some q -> nth_error (s_threads st) i = Some (Ret (Ans m)) ->
  exists qu a, head (m_question q) = Some qu /\ W (upstream_query q) (Ans a) /\
    (message_ok a -> verdict verify keyTag toDS hashName anchors (fun x => stripDNSSEC x (set_do q) (had_edns0 q) (q_type qu)) logOnly q a (s_time st) (Ans m)).
Proof. exact resolve_run. Qed.
Print Assumptions C43_verdict.
(** If the resolver does not set AD itself, AD means that the answer is validated. *)
Theorem C43_ad : forall verify keyTag toDS hashName anchors (W : msg -> result -> Prop) logOnly t0 qs st i q m,
  (forall u a, W u (Ans a) -> message_ok a /\ m_ad a = false) ->
  steps W (start anchors t0 (map (resolve verify keyTag toDS hashName logOnly) qs)) st ->
  nth_error qs i = Some q -> nth_error (s_threads st) i = Some (Ret (Ans m)) -> m_ad m = true ->
  exists qu a, head (m_question q) = Some qu /\ W (upstream_query q) (Ans a) /\ (m_rcode a = 0 \/ m_rcode a = 3) /\
    validated verify keyTag toDS hashName anchors a (s_time st) /\ m = stripDNSSEC (set_ad true a) (set_do q) (had_edns0 q) (q_type qu).
Proof. exact ad_run. Qed.
Print Assumptions C43_ad.
(** Answers that are neither validated nor proven unsigned become SERVFAIL. *)
Theorem C43_bogus : forall verify keyTag toDS hashName anchors (W : msg -> result -> Prop) t0 qs st i q m,
  (forall u a, W u (Ans a) -> message_ok a) ->
  steps W (start anchors t0 (map (resolve verify keyTag toDS hashName false) qs)) st ->
  nth_error qs i = Some q -> nth_error (s_threads st) i = Some (Ret (Ans m)) ->
  (forall a, W (upstream_query q) (Ans a) -> (m_rcode a = 0 \/ m_rcode a = 3) /\ ~ validated verify keyTag toDS hashName anchors a (s_time st) /\ ~ proven_unsigned verify keyTag toDS hashName anchors a (s_time st)) ->
  m = servfail q.
Proof. exact bogus_run. Qed.
Print Assumptions C43_bogus.
(** This is a reply to the query with rcode 2 and no records. *)
Theorem C43_servfail : forall q, m_question q <> [] -> Listener_spec.error_reply q 2 (servfail q).
Proof. exact Listener_proofs.error_reply_servfail. Qed.
Print Assumptions C43_servfail.
(** No crash, unless the resolver drops a query. *)
Theorem C43_no_panic : forall verify keyTag toDS hashName (W : msg -> result -> Prop), (forall q, ~ W q Drop) -> forall logOnly t s qs st i,
  (forall q, In q qs -> m_question q <> []) -> steps W (Sys t s (map (resolve verify keyTag toDS hashName logOnly) qs)) st -> nth_error (s_threads st) i <> Some Panic.
Proof. exact no_panic. Qed.
Print Assumptions C43_no_panic.
Theorem C43_drop_refuted : exists W anchors t0 st q, m_question q <> [] /\ steps W (start anchors t0 [tresolve q]) st /\ s_threads st = [Panic].
Proof. exact drop_refuted. Qed.
Print Assumptions C43_drop_refuted.

(** The AD flag of the resolver itself is passed on with answers from unsigned zones. *)
Theorem C43_ad_refuted : exists verify keyTag toDS hashName W anchors t0 st q m r,
  steps W (start anchors t0 [resolve verify keyTag toDS hashName false q]) st /\ s_threads st = [Ret (Ans m)] /\ m_rcode m = 0 /\ m_ad m = true /\ In r (m_answer m) /\ never_signed verify r.
Proof. exact ad_refuted. Qed.
Print Assumptions C43_ad_refuted.
(** An answer of nothing but signatures is marked as authenticated, even if no signature is valid. *)
Theorem C43_sigonly_refuted : exists W anchors t0 st q m,
  steps W (start anchors t0 [resolve (fun _ _ _ => false) ttag tds thash false q]) st /\ s_threads st = [Ret (Ans m)] /\
  (forall a, W (upstream_query q) (Ans a) -> m_ad a = false) /\ m_rcode m = 0 /\ m_ad m = true /\ m_answer m = [] /\ m_ns m = [].
Proof. exact sigonly_refuted. Qed.
Print Assumptions C43_sigonly_refuted.
(** The answer need not have to do with the question. *)
Theorem C43_question_refuted : exists verify keyTag toDS hashName W anchors t0 st q m,
  steps W (start anchors t0 [resolve verify keyTag toDS hashName false q]) st /\ s_threads st = [Ret (Ans m)] /\
  (forall a, W (upstream_query q) (Ans a) -> m_ad a = false) /\ m_rcode m = 0 /\ m_ad m = true /\
  (forall r qu, In r (m_answer m) -> In qu (m_question q) -> rr_name r <> q_name qu) /\ m_ns m = [].
Proof. exact question_refuted. Qed.
Print Assumptions C43_question_refuted.
(** NXDOMAIN is accepted without denial of existence if there are records in the answer section. *)
Theorem C43_nxdomain_refuted : exists verify keyTag toDS hashName W anchors t0 st q m,
  steps W (start anchors t0 [resolve verify keyTag toDS hashName false q]) st /\ s_threads st = [Ret (Ans m)] /\
  (forall a, W (upstream_query q) (Ans a) -> m_ad a = false /\ m_ns a = []) /\ m_rcode m = 3 /\ m_ad m = true /\ m_ns m = [].
Proof. exact nxdomain_refuted. Qed.
Print Assumptions C43_nxdomain_refuted.

(** The example zones: the resolver's answers satisfy the condition on messages; an authenticated answer, an authenticated denial, one from
    an unsigned zone, and a forged one *)
Example C43_messages : forall n t a, respond honest (upstream_query (query n t)) = Ans a -> In (n, t) [("www.victim.com."%string, 1); ("www.victim.com."%string, 28); ("www.plain.com."%string, 1)] -> message_ok a /\ m_ad a = false.
Proof. intros n t a H [[= <- <-]|[[= <- <-]|[[= <- <-]|[]]]]; cbv in H; injection H as <-; (split; [apply message_okb_ok; vm_compute; reflexivity|reflexivity]). Qed.
Example C43_signed : reply honest (query "www.victim.com." 1) = Some (0, true, [arec "www.victim.com."], []).
Proof. exact honest_reply. Qed.
Example C43_run : exists st m, steps (the honest) (start root_anchor 1500 [tresolve (query "www.victim.com." 1)]) st /\ s_threads st = [Ret (Ans m)] /\ m_rcode m = 0 /\ m_ad m = true /\ m_answer m = [arec "www.victim.com."] /\ m_ns m = [].
Proof. exact (reply_steps _ _ _ _ _ _ honest_reply). Qed.
Example C43_denial : reply honest (query "www.victim.com." 28) = Some (0, true, [], []).
Proof. exact nodata_reply. Qed.
Example C43_plain : reply honest (query "www.plain.com." 1) = Some (0, false, [arec "www.plain.com."], []).
Proof. exact plain_reply. Qed.
Example C43_forged : reply (("mail.victim.com.", 1, resp 0 [arec "mail.victim.com."; sg "mail.victim.com." 1 "victim.com." "s8"] []) :: honest)%string (query "mail.victim.com." 1) = Some (2, false, [], []).
Proof. exact forged_reply. Qed.
