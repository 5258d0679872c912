(** C79: the ODoH client (odohclient.go): what the proxy gets to see, and which key queries are encrypted with. *)
From Verif Require Import Base Bytes Dns Client_model Addr_model OdohC_model OdohC_spec OdohC_proofs OdohC_proofs2 Odoh_model Odoh_spec Odoh_proofs Params_spec Params_proofs.
Local Open Scope string_scope.

(** The proxy's URL gets the target added to its parameters; everything else of it stays: scheme, host and path, and the values of each
    parameter in their order. *)
Theorem C79_params : forall n p u base l, given u base l -> exists l', given (customizeRequest n p u) base l' /\
  forall k, values k l' = (values k l ++ (if String.eqb k "targethost" then [n] else if String.eqb k "targetpath" then [p] else []))%list.
Proof. exact params_added. Qed.
Print Assumptions C79_params.
(** Every URL has parameters in just one way, and so does the proxy see any request. *)
Theorem C79_given : forall u, exists base l, given u base l /\ forall base' l', given u base' l' -> base' = base /\ l' = l.
Proof. exact given_one. Qed.
Print Assumptions C79_given.
Theorem C79_seen : forall remote r, exists p, proxy_sees remote r p /\ forall p', proxy_sees remote r p' -> p' = p.
Proof. exact sees_one. Qed.
Print Assumptions C79_seen.

(** Whatever the target's name and path contain is escaped. *)
Theorem C79_escaped : forall s, chars safe (QueryEscape s) /\ forall t, unescaped (QueryEscape s) t <-> t = s.
Proof. exact escaped. Qed.
Print Assumptions C79_escaped.

(** The proxy gets nothing but the method, the proxy's own URL with the target, and the encrypted query. *)
Theorem C79_request : forall unpack pack base64 expand http encrypt decrypt config n p o q req,
  In req (fst (odoh_resolve unpack pack base64 expand http encrypt decrypt config (customizeRequest n p) o q)) ->
  exists b e, pack q = Some b /\ encrypt b = Some e /\
   (dc_method o = "POST" /\ (exists u, expand None = Some u /\ req = HReq "POST" (customizeRequest n p u) e) \/
    dc_method o = "GET" /\ (exists u m, expand (Some (base64 e)) = Some u /\ req = HReq m (customizeRequest n p u) [] /\ (m = "GET" \/ m = MethodGet0RTT))).
Proof. exact request. Qed.
Print Assumptions C79_request.

(** With POST, the proxy of C66 sends the encrypted query to the target: over https, to the name and path of the configuration. *)
Theorem C79_proxied : forall unpack pack base64 expand http encrypt decrypt do_ nets remote config n p o q req u base l,
  In req (fst (odoh_resolve unpack pack base64 expand http encrypt decrypt config (customizeRequest n p) o q)) ->
  dc_method o = "POST" -> expand None = Some u -> given u base l -> ~ In "targethost" (map fst l) -> ~ In "targetpath" (map fst l) ->
  domain n -> (N.of_nat (String.length n) <= 253)%N -> safe_path p -> (N.of_nat (String.length p) <= 1024)%N ->
  exists b e, pack q = Some b /\ encrypt b = Some e /\
   ((N.of_nat (length e) <= 4096)%N -> forall pr, proxy_sees remote req pr ->
    let f := Fwd "https" n p "application/oblivious-dns-message" e in ODoHproxyHandler do_ nets pr = ([f], relay (do_ f))).
Proof. exact proxied_sees. Qed.
Print Assumptions C79_proxied.

(** With a preset configuration that one is used always and nothing is fetched. *)
Theorem C79_preset : forall cfg hexdecode unmarshal preset qs s log, preset <> "" -> kruns cfg hexdecode unmarshal preset qs = (s, log) ->
  forall q r a, In (q, r, a) log -> a = false /\ forall c, r = Key c <-> exists b cs, hexdecode preset = Some b /\ unmarshal b = Some (c :: cs).
Proof. exact preset_runs. Qed.
Print Assumptions C79_preset.

(** Otherwise the key of a query is the one fetched for it, or the one of the latest request that brought anything, at most a day ago. *)
Theorem C79_fresh : forall cfg hexdecode unmarshal qs s log x q c a y, kruns cfg hexdecode unmarshal "" qs = (s, log) -> log = (x ++ (q, Key c, a) :: y)%list ->
  if a : bool then gives unmarshal (q_f q) c
  else exists y1 q' y2, y = (y1 ++ (q', Key c, true) :: y2)%list /\ gives unmarshal (q_f q') c /\ (q_t0 q <= q_t1 q' + 86400)%Z /\
    Forall (fun e => snd e = false \/ snd (fst e) = KPanic) y1.
Proof. exact fresh. Qed.
Print Assumptions C79_fresh.

(** A key is kept for a day: no further request in that time. So a target that changes its key gets queries it cannot read for up to a
    day: nothing else makes the client fetch a new one. *)
Theorem C79_kept : forall cfg hexdecode unmarshal qs s log x q r a y1 q' c y2, kruns cfg hexdecode unmarshal "" qs = (s, log) ->
  log = (x ++ (q, r, a) :: y1 ++ (q', Key c, true) :: y2)%list ->
  (q_t0 q <= q_t1 q' + 86400)%Z -> Forall (fun e => (q_t0 (fst (fst e)) <= q_t1 q' + 86400)%Z) y1 -> r = Key c /\ a = false.
Proof. exact kept. Qed.
Print Assumptions C79_kept.

(** A query fails for want of a key only when its own request brought none; the query after it (the last one of x) asks again. *)
Theorem C79_failed : forall cfg hexdecode unmarshal qs s log q r a x y, kruns cfg hexdecode unmarshal "" qs = (s, log) -> log = (x ++ (q, r, a) :: y)%list -> (forall c, r <> Key c) ->
  a = true /\ (forall c, ~ gives unmarshal (q_f q) c) /\ (r = KErr -> forall x' e, x = (x' ++ [e])%list -> snd e = true).
Proof. exact failed. Qed.
Print Assumptions C79_failed.

(** It panics exactly when its own request brings a list of configurations in which there is none the library can read. *)
Theorem C79_panics : forall cfg hexdecode unmarshal qs s log q r a, kruns cfg hexdecode unmarshal "" qs = (s, log) -> In (q, r, a) log ->
  (r = KPanic <-> a = true /\ brings_none unmarshal (q_f q)).
Proof. exact panics. Qed.
Print Assumptions C79_panics.

(** Without a proxy in the configuration, and only then, the requests go to the target itself. *)
Theorem C79_direct : forall proxy target, proxy <> target -> (proxy_url proxy target = target <-> proxy = "") /\ (proxy_url proxy target = proxy <-> proxy <> "").
Proof. intros proxy target NE. unfold proxy_url. destruct (String.eqb_spec proxy "") as [->|N]; split; split; congruence. Qed.
Print Assumptions C79_direct.

(** Concrete cases. *)
Definition C79_proxy : string := "https://proxy.example/proxy?token=a%26b&x=1&token=c".
Definition C79_opt : dohcopt := DohCOpt "POST" "" false.
Definition C79_q : msg := empty_msg.
Example C79_ex_url : customizeRequest "odoh.example.net" "/dns-query" C79_proxy =
  "https://proxy.example/proxy?targethost=odoh.example.net&targetpath=%2Fdns-query&token=a%26b&token=c&x=1".
Proof. vm_compute. reflexivity. Qed.
Definition C79_run u := fst (odoh_resolve (fun _ => None) (fun _ => Some [1; 2]%N) (fun _ => "AQI") (fun _ => Some u) (fun _ => None) (fun b => Some (7%N :: b)) (fun _ => None) true
  (customizeRequest "odoh.example.net" "/dns-query") C79_opt C79_q).
Example C79_ex_request : C79_run C79_proxy = [HReq "POST" (customizeRequest "odoh.example.net" "/dns-query" C79_proxy) [7; 1; 2]%N].
Proof. vm_compute. reflexivity. Qed.
Example C79_ex_domain : domain "odoh.example.net" /\ safe_path "/dns-query" /\ exists base l, given C79_proxy base l /\ ~ In "targethost" (map fst l) /\ ~ In "targetpath" (map fst l).
Proof.
  split; [|split; [|do 2 eexists; split; [apply given_iff; split; reflexivity|split; vm_compute; intuition discriminate]]].
  - exists ["odoh"; "example"], "net". split; [discriminate|]. split; [|split; [cbn; auto with arith|split; [|reflexivity]]].
    + repeat apply Forall_cons; try apply Forall_nil; (split; [discriminate|]); intros [|[|[|[|[|[|[|i]]]]]]] c; cbn; try discriminate; intros [= <-]; left; left; vm_compute; split; discriminate.
    + intros [|[|[|i]]] c; cbn; try discriminate; intros [= <-]; left; vm_compute; split; discriminate.
  - apply safe_iff. vm_compute. reflexivity.
Qed.
Definition C79_um (b : bytes) : option (list bytes) := match b with [] => None | [0%N] => Some [] | _ => Some [b] end.
Definition C79_ok (b : bytes) : option hresp := Some (HResp 200 "" b false).
Example C79_ex_keys : map (fun e => (snd (fst e), snd e)) (snd (kruns bytes (fun _ => None) C79_um ""
    [KQuery 100 101 None; KQuery 102 103 (C79_ok [5]%N); KQuery 200 201 (C79_ok [6]%N); KQuery 86503 86504 None; KQuery 86504 86505 (C79_ok [6]%N); KQuery 200000 200001 None])) =
  [(KErr, true); (Key [6]%N, true); (Key [5]%N, false); (Key [5]%N, false); (Key [5]%N, true); (KErr, true)].
Proof. vm_compute. reflexivity. Qed.

(** False: the proxy can serve any client. It takes POST only (405), but the client may be set to GET. *)
Theorem C79_get_refuted : forall unpack pack base64 expand http encrypt decrypt do_ nets remote config n p o q req pr,
  In req (fst (odoh_resolve unpack pack base64 expand http encrypt decrypt config (customizeRequest n p) o q)) -> dc_method o = "GET" ->
  proxy_sees remote req pr -> ODoHproxyHandler do_ nets pr = ([], PStatus 405).
Proof. exact get_refused_sees. Qed.
Print Assumptions C79_get_refuted.
(** False: queries go to the target of the configuration. A target named in the proxy's URL comes first. *)
Theorem C79_given_refuted : exists n p u base l h, given (customizeRequest n p u) base l /\ first "targethost" l h /\ h <> n.
Proof. exact other_target. Qed.
Print Assumptions C79_given_refuted.
(** False: the key comes from the target. With a bootstrap address, which is meant for the proxy, the request for the key goes there. *)
Theorem C79_bootstrap_refuted : forall b, b <> "" -> forall n n' port, key_dial b n port = key_dial b n' port.
Proof. intros b B n n' port. unfold key_dial. destruct (String.eqb_spec b ""); [contradiction|reflexivity]. Qed.
Print Assumptions C79_bootstrap_refuted.
(** False: only a successful response brings a key. The status is not looked at. *)
Theorem C79_status_refuted : exists f, option_map hr_status f = Some 500%N /\ snd (refreshTargetKey bytes C79_um f 0) = Key [5]%N.
Proof. exists (Some (HResp 500 "" [5]%N false)). vm_compute. auto. Qed.
Print Assumptions C79_status_refuted.
