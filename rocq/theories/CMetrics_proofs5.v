(** The counters of DoH, ODoH and DoQ clients, put together *)
From Coq Require Import Permutation.
From Verif Require Import Base Bytes Dns Modifiers_model Listener_model Client_model Client_proofs Metrics_model Metrics_spec Metrics_proofs CMetrics_model CMetrics_spec CMetrics_proofs.
Local Open Scope string_scope.
Local Open Scope bool_scope.
Local Open Scope nat_scope.

Lemma number_plus {A} (f g h : A -> bool) l : (forall x, one (f x) + one (g x) = one (h x)) -> number f l + number g l = number h l.
Proof.
  intros H. unfold number. induction l as [|x l IH]; [reflexivity|]. cbn. specialize (H x). destruct (f x), (g x), (h x); cbn in H |- *; try discriminate H; lia.
Qed.

Section All.
Variable rCode : N -> string.
Variable decimal : N -> string.
Section Http.
Variable base : msg -> N.
Variable optlen : edns0 -> N.
Variable unpack : bytes -> option msg.
Variable pack : msg -> option bytes.
Variable base64 : bytes -> string.
Variable expand : option string -> option string.
Variable has_dns : bool.
Variable o0 o : dohcopt.
Hypothesis new : newDoHClient has_dns o0 = Some o.
Lemma new_method : supported o.
Proof. destruct (doh_options has_dns o0 o new) as (_ & _ & _ & [E|[E|[]]] & _); unfold supported; auto. Qed.

Notation run := (d_run base optlen unpack pack base64 expand o).
Notation bumps := (d_bumps rCode decimal base optlen unpack pack base64 expand o).
Definition panics (r : result) : bool := failed_with (String.eqb "panic") r.
Lemma doh_counts :
  shows bumps ("query", "") (fun c => negb (failed_with (fun e => is e ["panic"; "pack"]) (snd (run c)))) /\
  (forall k, shows bumps ("response", k) (fun c => gave (fun a => String.eqb k (rCode (m_rcode a))) (snd (run c)))) /\
  (forall k, shows bumps ("error", k) (fun c => because k (doh_reason decimal (d_http c) (d_bad c) (run c)))) /\
  (forall calls log, Permutation log (flat_map bumps calls) -> named "response" log + named "error" log = number (fun c => negb (panics (snd (run c)))) calls).
Proof.
  pose proof (d_form rCode decimal base optlen unpack pack base64 expand o new_method) as F.
  split; [exact (form_query rCode _ _ _ _ _ F)|]. split; [exact (form_response rCode _ _ _ _ _ F)|]. split; [exact (form_error rCode _ _ _ _ _ F)|].
  intros calls log P. rewrite (form_responses rCode _ _ _ _ _ F calls log P), (form_errors rCode _ _ _ _ _ F calls log P). apply number_plus. intros c.
  unfold d_reason, d_run, panics, doh_resolve. destruct (padQuery base optlen (d_q c)) as [q|]; [|reflexivity].
  destruct (pack q) as [b|]; [|reflexivity]. destruct (buildRequest base64 expand o b (m_opcode q)) as [req|]; [|reflexivity].
  destruct (d_http c req) as [r|]; [|reflexivity].
  unfold responseFromHTTP. destruct (_ || _)%N; [reflexivity|]. destruct (readBoundedBody _ _ _) as [x|]; [|reflexivity].
  destruct (unpack x) as [a|]; [|reflexivity]. destruct (validateResponseQuestion q a); reflexivity.
Qed.

Variable with_target : string -> string.
Notation orun := (fun c => o_run unpack pack base64 expand o c with_target).
Notation obumps := (o_bumps rCode decimal unpack pack base64 expand o with_target).
Lemma odoh_counts :
  shows obumps ("query", "") (fun _ => false) /\
  (forall k, shows obumps ("response", k) (fun c => gave (fun a => String.eqb k (rCode (m_rcode a))) (snd (orun c)))) /\
  (forall k, shows obumps ("error", k) (fun c => because k (odoh_reason decimal (oc_http c) (oc_bad c) (oc_keyfail c) (oc_undec c) (orun c)))) /\
  (forall calls log, Permutation log (flat_map obumps calls) -> named "response" log + named "error" log =
     number (fun c => negb (failed_with (fun e => is e ["pack"; "encrypt"; "header"] || String.eqb e "config" && negb (oc_keyfail c)) (snd (orun c)))) calls).
Proof.
  pose proof (o_form rCode decimal unpack pack base64 expand o new_method with_target) as F.
  split; [exact (form_query rCode _ _ (fun _ => false) _ _ F)|]. split; [exact (form_response rCode _ _ (fun _ => false) _ _ F)|]. split; [exact (form_error rCode _ _ (fun _ => false) _ _ F)|].
  intros calls log P. rewrite (form_responses rCode _ _ (fun _ => false) _ _ F calls log P), (form_errors rCode _ _ (fun _ => false) _ _ F calls log P). apply number_plus. intros c.
  unfold o_reason, o_run, odoh_resolve. destruct (oc_config c); [|destruct (oc_keyfail c) eqn:K; cbn; rewrite ?K; reflexivity]. cbn [negb].
  destruct (pack (oc_q c)) as [b|]; [|reflexivity]. destruct (oc_enc c b) as [e|]; [|reflexivity].
  destruct (buildRequest base64 expand o e (m_opcode (oc_q c))) as [req|]; [|reflexivity].
  cbv zeta. set (req' := HReq _ _ _). destruct (oc_http c req') as [r|]; [|reflexivity].
  unfold decodeProxyResponse. destruct (_ || _)%N; [reflexivity|]. destruct (negb (String.eqb (hr_ctype r) _)); [reflexivity|].
  destruct (readBoundedBody _ _ _) as [x|]; [|reflexivity]. destruct (oc_dec c x) as [d|]; [|reflexivity].
  destruct (unpack d) as [a|]; [|reflexivity]. destruct (validateResponseQuestion (oc_q c) a); reflexivity.
Qed.
End Http.

Section Doq.
Variable unpack : bytes -> option msg.
Variable pack : msg -> option bytes.
Notation run := (q_run unpack pack).
Notation bumps := (q_bumps rCode unpack pack).
Lemma doq_counts :
  shows bumps ("query", "") (fun _ => true) /\
  (forall k, shows bumps ("response", k) (fun c => gave (fun a => String.eqb k (rCode (m_rcode a))) (snd (run c)))) /\
  (forall k, shows bumps ("error", k) (fun c => because k (doq_reason (qa_close c) (snd (run c))))) /\
  (forall calls log, Permutation log (flat_map bumps calls) -> named "response" log + named "error" log = length calls).
Proof.
  pose proof (q_form rCode unpack pack) as F.
  split; [exact (form_query rCode _ _ (fun _ => true) _ _ F)|]. split; [exact (form_response rCode _ _ (fun _ => true) _ _ F)|]. split; [exact (form_error rCode _ _ (fun _ => true) _ _ F)|].
  intros calls log P. rewrite (form_responses rCode _ _ (fun _ => true) _ _ F calls log P), (form_errors rCode _ _ (fun _ => true) _ _ F calls log P).
  transitivity (number (fun _ : qcall => true) calls); [|unfold number; induction calls as [|x l IH] in |- *; [reflexivity|cbn; rewrite IH; reflexivity]].
  apply number_plus. intros c.
  unfold q_reason, q_run, doq_call, doq_resolve. destruct (pack (doq_query (qa_q c))) as [p|]; [|reflexivity].
  destruct (qa_resolved c); [|reflexivity]. destruct (getStream _ _ _) as [ev [k|]]; [|reflexivity].
  destruct (qa_answer c k (frame p)) as [data|]; [|reflexivity]. destruct (read_frame data) as [r|]; [|reflexivity].
  destruct (unpack r) as [a|]; [|reflexivity]. destruct (validateResponseQuestion _ _); [|reflexivity]. destruct (has_keepalive _); reflexivity.
Qed.
End Doq.
End All.
