(** The counters of DoH, ODoH and DoQ clients *)
From Coq Require Import Permutation.
From Verif Require Import Base Bytes Dns Modifiers_model Listener_model Client_model Metrics_model Metrics_spec Metrics_proofs CMetrics_model CMetrics_spec.
Local Open Scope string_scope.
Local Open Scope bool_scope.
Local Open Scope nat_scope.

Definition opt_err (o : option string) : list bump := match o with Some k => [err k] | None => [] end.
Lemma times_err k o : times (err k) (opt_err o) = one (because k o).
Proof. destruct o as [x|]; [|reflexivity]. cbn [opt_err because]. unfold times, bump_eqb, err. cbn [filter fst snd]. rewrite String.eqb_refl. cbn [andb]. destruct (String.eqb k x); reflexivity. Qed.
Lemma named_err o : named "error" (opt_err o) = one (blamed_any o).
Proof. destruct o; reflexivity. Qed.
Lemma times_query_err o : times (int "query") (opt_err o) = 0.
Proof. destruct o; reflexivity. Qed.
Lemma times_resp_err k o : times ("response", k) (opt_err o) = 0.
Proof. destruct o; reflexivity. Qed.
Lemma named_resp_err o : named "response" (opt_err o) = 0.
Proof. destruct o; reflexivity. Qed.

Lemma named_app n l l' : named n (l ++ l')%list = named n l + named n l'.
Proof. unfold named. rewrite filter_app, app_length. reflexivity. Qed.
Section All.
Variable rCode : N -> string.
Variable decimal : N -> string.
Notation answered := (answered rCode).
Definition opt_ans (r : result) : list bump := match r with Ans a => [answered a] | _ => [] end.
Lemma times_ans k r : times ("response", k) (opt_ans r) = one (gave (fun a => String.eqb k (rCode (m_rcode a))) r).
Proof. destruct r as [a| |e]; try reflexivity. unfold times, bump_eqb, opt_ans, CMetrics_model.answered. cbn [filter fst snd gave]. rewrite String.eqb_refl. cbn [andb]. destruct (String.eqb k _); reflexivity. Qed.
Lemma named_ans r : named "response" (opt_ans r) = one (gave (fun _ => true) r).
Proof. destruct r; reflexivity. Qed.
Lemma times_query_ans r : times (int "query") (opt_ans r) = 0.
Proof. destruct r; reflexivity. Qed.
Lemma times_err_ans k r : times (err k) (opt_ans r) = 0.
Proof. destruct r; reflexivity. Qed.
Lemma named_err_ans r : named "error" (opt_ans r) = 0.
Proof. destruct r; reflexivity. Qed.

(** Calls whose additions have this form *)
Section Form.
Variable A : Type.
Variable bumps : A -> list bump.
Variable counted : A -> bool.
Variable reason : A -> option string.
Variable out : A -> result.
Hypothesis form : forall c, bumps c = ((if counted c then [int "query"] else []) ++ opt_err (reason c) ++ opt_ans (out c))%list.
Lemma form_query : shows bumps (int "query") counted.
Proof. apply shows_intro. intros c. rewrite form, !times_app, times_query_err, times_query_ans. destruct (counted c); reflexivity. Qed.
Lemma form_error k : shows bumps (err k) (fun c => because k (reason c)).
Proof. apply shows_intro. intros c. rewrite form, !times_app, times_err, times_err_ans. destruct (counted c); cbn [times filter length]; rewrite ?Nat.add_0_r; reflexivity. Qed.
Lemma form_errors : shows_named bumps "error" (fun c => blamed_any (reason c)).
Proof.
  apply shows_named_intro. intros c. rewrite form. rewrite !named_app, named_err, named_err_ans. destruct (counted c); cbn; lia.
Qed.
Lemma form_response k : shows bumps ("response", k) (fun c => gave (fun a => String.eqb k (rCode (m_rcode a))) (out c)).
Proof. apply shows_intro. intros c. rewrite form, !times_app, times_resp_err, times_ans. destruct (counted c); reflexivity. Qed.
Lemma form_responses : shows_named bumps "response" (fun c => gave (fun _ => true) (out c)).
Proof.
  apply shows_named_intro. intros c. rewrite form. rewrite !named_app, named_ans, named_resp_err. destruct (counted c); cbn; lia.
Qed.
End Form.

Section Http.
Variable base : msg -> N.
Variable optlen : edns0 -> N.
Variable unpack : bytes -> option msg.
Variable pack : msg -> option bytes.
Variable base64 : bytes -> string.
Variable expand : option string -> option string.
Variable o : dohcopt.
Definition supported : Prop := dc_method o = "POST" \/ dc_method o = "GET".
Hypothesis sup : supported.
Lemma build_fails bad : build_bumps bad o = [err (if bad then "http" else "template")].
Proof. unfold build_bumps. destruct sup as [-> | ->]; reflexivity. Qed.
Lemma read_fails r : readBoundedBody maxDoHResponseSize (hr_body r) (hr_broken r) = None ->
  read_key r = if Nat.ltb (N.to_nat (65535 + 512)) (length (hr_body r)) then "toolarge" else "read".
Proof.
  unfold readBoundedBody, read_key. change (N.to_nat (65535 + 512)) with maxDoHResponseSize. generalize maxDoHResponseSize as M. intros M.
  rewrite firstn_length. destruct (hr_broken r); cbn [andb].
  - destruct (Nat.ltb_spec (length (hr_body r)) (M + 1)) as [L|L].
    + intros _. destruct (Nat.ltb_spec M (length (hr_body r))); [lia|reflexivity].
    + intros _. destruct (Nat.ltb_spec M (length (hr_body r))); [reflexivity|lia].
  - destruct (Nat.ltb_spec M (Nat.min (M + 1) (length (hr_body r)))) as [L|L]; [|discriminate]. intros _. destruct (Nat.ltb_spec M (length (hr_body r))); [reflexivity|lia].
Qed.

Definition d_run (c : dcall) := doh_resolve base optlen unpack pack base64 expand (d_http c) o (d_q c).
Definition d_bumps (c : dcall) := doh_bumps rCode decimal base optlen unpack pack base64 expand (d_http c) (d_bad c) o (d_q c).
Definition d_counted (c : dcall) : bool := negb (failed_with (fun e => is e ["panic"; "pack"]) (snd (d_run c))).
Definition d_reason (c : dcall) := doh_reason decimal (d_http c) (d_bad c) (d_run c).
Lemma d_form c : d_bumps c = ((if d_counted c then [int "query"] else []) ++ opt_err (d_reason c) ++ opt_ans (snd (d_run c)))%list.
Proof.
  unfold d_bumps, doh_bumps, d_counted, d_reason, d_run, doh_resolve. destruct (padQuery base optlen (d_q c)) as [q|]; [|reflexivity].
  destruct (pack q) as [b|]; [|reflexivity]. destruct (buildRequest base64 expand o b (m_opcode q)) as [req|]; [|rewrite build_fails; destruct (d_bad c); reflexivity].
  destruct (d_http c req) as [r|] eqn:H; [|reflexivity].
  unfold http_bumps, responseFromHTTP. destruct ((hr_status r <? 200) || (299 <? hr_status r))%N.
  { cbn -[String.append]. unfold status_of, made. cbn [fst]. rewrite H. reflexivity. }
  destruct (readBoundedBody maxDoHResponseSize (hr_body r) (hr_broken r)) as [x|] eqn:R.
  2:{ rewrite (read_fails r R). unfold doh_reason, large, made. cbn [fst snd]. rewrite H. cbn [failed_with is existsb String.eqb Ascii.eqb Bool.eqb orb negb app opt_ans opt_err].
      destruct (Nat.ltb _ _); reflexivity. }
  destruct (unpack x) as [a|]; [|reflexivity]. destruct (validateResponseQuestion q a); reflexivity.
Qed.

Definition o_run (c : ocall) with_target := odoh_resolve unpack pack base64 expand (oc_http c) (oc_enc c) (oc_dec c) (oc_config c) with_target o (oc_q c).
Definition o_bumps with_target (c : ocall) := odoh_bumps rCode decimal unpack pack base64 expand (oc_http c) (oc_bad c) (oc_enc c) (oc_dec c) (oc_config c) with_target (oc_keyfail c) (oc_undec c) o (oc_q c).
Definition o_reason with_target (c : ocall) := odoh_reason decimal (oc_http c) (oc_bad c) (oc_keyfail c) (oc_undec c) (o_run c with_target).
Lemma bounded_all r x : readBoundedBody maxDoHResponseSize (hr_body r) (hr_broken r) = Some x -> x = hr_body r.
Proof.
  unfold readBoundedBody. generalize maxDoHResponseSize as M. intros M. destruct (hr_broken r && _); [discriminate|]. rewrite firstn_length.
  destruct (Nat.ltb_spec M (Nat.min (M + 1) (length (hr_body r)))) as [L|L]; [discriminate|]. intros [= <-]. apply firstn_all2. lia.
Qed.
Lemma o_form with_target c : o_bumps with_target c = ((if false then [int "query"] else []) ++ opt_err (o_reason with_target c) ++ opt_ans (snd (o_run c with_target)))%list.
Proof.
  unfold o_bumps, odoh_bumps, o_reason, o_run, odoh_resolve. destruct (oc_config c); cbn [negb]; [|destruct (oc_keyfail c); reflexivity].
  destruct (pack (oc_q c)) as [b|]; [|reflexivity]. destruct (oc_enc c b) as [e|]; [|reflexivity].
  destruct (buildRequest base64 expand o e (m_opcode (oc_q c))) as [req|]; [|rewrite build_fails; destruct (oc_bad c); reflexivity].
  cbv zeta. set (req' := HReq _ _ _). destruct (oc_http c req') as [r|] eqn:H; [|reflexivity].
  unfold proxy_bumps, decodeProxyResponse. destruct ((hr_status r <? 200) || (299 <? hr_status r))%N.
  { cbn -[String.append req']. unfold status_of, made. cbn [fst]. rewrite H. reflexivity. }
  destruct (negb (String.eqb (hr_ctype r) _)); [reflexivity|].
  destruct (readBoundedBody maxDoHResponseSize (hr_body r) (hr_broken r)) as [x|] eqn:R.
  2:{ rewrite (read_fails r R). unfold odoh_reason, doh_reason, large, made. cbn [fst snd]. rewrite H. cbn [failed_with is existsb String.eqb Ascii.eqb Bool.eqb orb negb app opt_ans opt_err].
      destruct (Nat.ltb _ _); reflexivity. }
  destruct (oc_dec c x) as [d|].
  2:{ unfold odoh_reason, body_of, made. cbn [fst snd]. rewrite H. rewrite (bounded_all r x R). cbn [is existsb String.eqb Ascii.eqb Bool.eqb orb opt_err opt_ans app]. destruct (oc_undec c _); reflexivity. }
  destruct (unpack d) as [a|]; [|reflexivity]. destruct (validateResponseQuestion (oc_q c) a); reflexivity.
Qed.
End Http.

Section Doq.
Variable unpack : bytes -> option msg.
Variable pack : msg -> option bytes.
Definition q_run (c : qcall) := doq_call unpack pack (qa_answer c) (qa_resolved c) (qa_conn c) (qa_dials c) (qa_q c).
Definition q_bumps (c : qcall) := doq_bumps rCode unpack pack (qa_answer c) (qa_resolved c) (qa_close c) (qa_conn c) (qa_dials c) (qa_q c).
Definition q_reason (c : qcall) := doq_reason (qa_close c) (snd (q_run c)).
Lemma keepalive_id i a : has_keepalive (set_id i a) = has_keepalive a.
Proof. destruct a; reflexivity. Qed.
Lemma q_form c : q_bumps c = ((if true then [int "query"] else []) ++ opt_err (q_reason c) ++ opt_ans (snd (q_run c)))%list.
Proof.
  unfold q_bumps, doq_bumps, q_reason, q_run, doq_call, doq_resolve. destruct (pack (doq_query (qa_q c))) as [p|]; [|reflexivity].
  destruct (qa_resolved c); [|reflexivity]. cbn [negb]. destruct (getStream _ _ _) as [ev [k|]]; [|reflexivity]. cbn [snd].
  destruct (qa_answer c k (frame p)) as [data|]; [|destruct (qa_close c); reflexivity]. destruct (read_frame data) as [r|]; [|reflexivity].
  destruct (unpack r) as [a|]; [|reflexivity]. rewrite keepalive_id. destruct (validateResponseQuestion _ _); [|reflexivity]. cbn [negb].
  destruct (has_keepalive a); [reflexivity|]. cbn. destruct a; reflexivity.
Qed.
End Doq.
End All.
