(** Resolvers: URL, TLS, sizes and times. *)
From Verif Require Import Base Bytes Net Cidr_spec Net_spec Router_model Addr_model Addr_spec Base_proofs Net_proofs Addr_proofs RunNs_model XDial_model LSock_model Hostname_spec Hostname_model Hostname_proofs ListCfg_model Tls_spec ResCfg_model ResCfg_spec ResCfg_proofs ResCfg_proofs2 ResCfg_proofs3.
From Verif Require Tls_model Tls_proofs Client_model Client_proofs Client_proofs2 Client_spec Modifiers_spec Listener_spec.
Local Open Scope string_scope.

Section P.
Context {CA Cert : Type}.
Variable w : world CA Cert.
Notation with_port r p := (AddressWithDefault (w_url w) (r_address r) p).

Lemma port_443 : without ":" "443" /\ plain "443".
Proof. split; [|split]; apply without_iff; reflexivity. Qed.
Lemma completed_ok a : completed w a (AddressWithDefault (w_url w) a "443").
Proof.
  assert (T : exists e t, templated a e t).
  { destruct (Addr_model.cut "{" a) as [(e, b)|] eqn:C.
    - apply cut_iff in C. destruct C as (-> & W). apply without_iff in W. exists e, ("{" ++ b). split; [reflexivity|]. split; [exact W|right; eauto].
    - exists a, "". apply cut_none in C. split; [symmetry; apply string_app_nil_r|]. split; [apply without_iff; exact C|left; reflexivity]. }
  destruct T as (e & t & T). exists e, t. split; [exact T|]. destruct (contains "/" e) eqn:S.
  - right. right. assert (N : ~ without "/" e) by (intros K; apply without_iff in K; congruence). split; [exact N|]. exact (awd_url (w_url w) a e t "443" T N).
  - apply without_iff in S. destruct (contains ":" e) eqn:K.
    + left. split; [exact S|]. assert (N : ~ without ":" e) by (intros Q; apply without_iff in Q; congruence). split; [exact N|]. exact (awd_kept (w_url w) a e t "443" T S N).
    + right. left. apply without_iff in K. split; [exact S|]. split; [exact K|]. intros (P1 & P2). rewrite (awd_plain (w_url w) a e t "443" T S K).
      destruct port_443 as (N1 & N2 & N3). split; [auto|]. left. auto.
Qed.

Lemma https_starts r : (forall s, w_bind w s = true) -> short (h_idle r) -> (r_protocol r = "doh" \/ r_protocol r = "odoh") ->
  exists url, talks_to w r url /\
    (made w r <> None <-> one_way r /\ files w r /\ doh_options w r (early r) url /\ (r_protocol r = "odoh" -> exists u, w_url w (o_target r) = Some u)).
Proof.
  intros BI SH [E|E].
  - exists (with_port r "443"). split; [left; split; [exact E|apply completed_ok]|]. unfold early. rewrite (doh_starts w r BI SH E), E. cbn [String.eqb Ascii.eqb Bool.eqb].
    split; [intros (A & B & C); split; [exact A|]; split; [exact B|]; split; [exact C|discriminate]|intros (A & B & C & _); auto].
  - exists (if String.eqb (r_address r) "" then o_target r else r_address r). split; [right; split; [exact E|]; destruct (String.eqb_spec (r_address r) ""); [right|left]; auto|].
    unfold early. rewrite (odoh_starts w r BI SH E), E. cbn [String.eqb Ascii.eqb Bool.eqb]. split; [intros (A & B & C & D); auto|intros (A & B & C & D); auto].
Qed.
(** What is made for DoH and ODoH *)
Lemma https_made r c : (r_protocol r = "doh" \/ r_protocol r = "odoh") -> made w r = Some c -> short (h_idle r) ->
  exists d url m, talks_to w r url /\ (r_protocol r = "doh" -> c = CDoh CA Cert d) /\
    (r_protocol r = "odoh" -> exists u, w_url w (o_target r) = Some u /\ c = COdoh CA Cert d (u_hostname u) (u_port u) (w_path w (o_target r)) (o_config r)) /\
    d_url CA Cert d = url /\ method r (early r) m /\ d_opt CA Cert d = Client_model.DohCOpt m (r_transport r) (early r) /\
    (r_transport r <> "quic" -> exists idle o, d_transport CA Cert d = OverTcp idle o /\ lasting (h_idle r) 30 idle) /\
    (r_transport r = "quic" -> exists q o, d_transport CA Cert d = OverQuic (h_idle r * 1000000000)%Z q o (early r)) /\
    (r_transport r <> "quic" -> secured w r (r_server r) 771 c) /\
    (r_transport r = "quic" -> exists u, w_url w url = Some u /\ secured w r (u_hostname u) 771 c).
Proof.
  intros PD M SH.
  assert (ID : lasting (h_idle r) 30 (if Z.eqb (seconds (h_idle r)) 0 then defaultDoHIdleTimeout else seconds (h_idle r))).
  { unfold lasting, defaultDoHIdleTimeout. rewrite (seconds_ns _ SH). destruct (Z.eqb_spec (h_idle r * 1000000000) 0); lia. }
  destruct PD as [E|E].
  - revert M. rewrite (made_doh w r E). destruct (buildNetNS _ _) as [ns|]; [|discriminate]. destruct (Tls_model.TLSClientConfig _ _ _ _ _ _ _ _) as [t|] eqn:T; [|discriminate].
    destruct (newDoHClient _ _ _ _ _ _ _ _) as [d|] eqn:N; [|discriminate]. intros [= <-]. apply Tls_proofs.client_iff in T. destruct T as (q0 & x0 & Q0 & X0 & ->).
    destruct (newdoh_cases w r _ _ _ _ _ _ _ N) as (m & ME & OP & UR & _ & CA').
    exists d, (with_port r "443"), m. split; [left; split; [exact E|apply completed_ok]|]. split; [reflexivity|]. split; [rewrite E; discriminate|]. split; [exact UR|].
    unfold early. rewrite E. cbn [String.eqb Ascii.eqb Bool.eqb]. split; [exact ME|]. split; [exact OP|].
    destruct CA' as [(NQ & TL & TR)|(YQ & u & q & U & TL & _ & TR)].
    + split; [intros _; eexists; eexists; split; [exact TR|exact ID]|]. split; [contradiction|]. split; [|contradiction]. intros _. exists q0, x0. split; [exact Q0|]. split; [exact X0|]. unfold tls_of. rewrite TL. reflexivity.
    + split; [contradiction|]. split; [intros _; rewrite (seconds_ns _ SH) in TR; eauto|]. split; [contradiction|]. intros _. exists u. split; [exact U|]. exists q0, x0. split; [exact Q0|]. split; [exact X0|]. unfold tls_of. rewrite TL. reflexivity.
  - revert M. rewrite (made_odoh w r E). destruct (buildNetNS _ _) as [ns|]; [|discriminate]. destruct (Tls_model.TLSClientConfig _ _ _ _ _ _ _ _) as [t|] eqn:T; [|discriminate].
    unfold newODoHClient. destruct (newDoHClient _ _ _ _ _ _ _ _) as [d|] eqn:N; [|discriminate]. destruct (w_url w (o_target r)) as [u'|] eqn:U'; [|discriminate]. intros [= <-]. apply Tls_proofs.client_iff in T. destruct T as (q0 & x0 & Q0 & X0 & ->).
    destruct (newdoh_cases w r _ _ _ _ _ _ _ N) as (m & ME & OP & UR & _ & CA').
    exists d, (if String.eqb (r_address r) "" then o_target r else r_address r), m. split; [right; split; [exact E|]; destruct (String.eqb_spec (r_address r) ""); [right|left]; auto|].
    split; [rewrite E; discriminate|]. split; [intros _; exists u'; split; [reflexivity|reflexivity]|]. split; [exact UR|].
    unfold early. rewrite E. cbn [String.eqb Ascii.eqb Bool.eqb]. split; [exact ME|]. split; [exact OP|].
    destruct CA' as [(NQ & TL & TR)|(YQ & u & q & U & TL & _ & TR)].
    + split; [intros _; eexists; eexists; split; [exact TR|exact ID]|]. split; [contradiction|]. split; [|contradiction]. intros _. exists q0, x0. split; [exact Q0|]. split; [exact X0|]. unfold tls_of. rewrite TL. reflexivity.
    + split; [contradiction|]. split; [intros _; rewrite (seconds_ns _ SH) in TR; eauto|]. split; [contradiction|]. intros _. exists u. split; [exact U|]. exists q0, x0. split; [exact Q0|]. split; [exact X0|]. unfold tls_of. rewrite TL. reflexivity.
Qed.

(** The TLS configuration of the others *)
Lemma dot_tls r h p c : r_protocol r = "dot" -> server r "853" h p -> made w r = Some c ->
  secured w r (if String.eqb (r_boot r) "" then r_server r else h) 771 c.
Proof.
  intros PD S. rewrite (made_dot w r PD). pose proof (awd_server w r "853" h p S (proj1 port_853) (proj2 port_853)) as SP.
  destruct (buildNetNS _ _) as [ns|]; [|discriminate]. destruct (Tls_model.TLSClientConfig _ _ _ _ _ _ _ _) as [t|] eqn:T; [|discriminate].
  apply Tls_proofs.client_iff in T. destruct T as (q0 & x0 & Q0 & X0 & ->). unfold newDoTClient. destruct (valid_endpoint _ _ _ _); [|discriminate].
  destruct (String.eqb (r_boot r) ""); [|rewrite SP]; intros [= <-]; exists q0, x0; split; [exact Q0| |exact Q0|]; (split; [exact X0|reflexivity]).
Qed.
Lemma dtls_tls r h p c : r_protocol r = "dtls" -> server r "853" h p -> made w r = Some c ->
  secured w r (if String.eqb (r_boot r) "" then "" else h) 0 c.
Proof.
  intros PD S. rewrite (made_dtls w r PD). pose proof (awd_server w r "853" h p S (proj1 port_853) (proj2 port_853)) as SP.
  destruct (buildNetNS _ _) as [ns|]; [|discriminate]. destruct (Tls_model.DTLSClientConfig _ _ _ _ _ _ _) as [t|] eqn:T; [|discriminate].
  apply Tls_proofs.dclient_iff in T. destruct T as (q0 & x0 & Q0 & X0 & ->). unfold newDTLSClient. destruct (valid_endpoint _ _ _ _); [|discriminate].
  rewrite SP. destruct (atoi p) as [z|]; [|discriminate]. cbv zeta. destruct (String.eqb (r_boot r) "").
  - destruct (w_lookup w h); [discriminate|]. intros [= <-]. exists q0, x0. split; [exact Q0|]. split; [exact X0|reflexivity].
  - destruct (w_ip w (r_boot r)); [discriminate|]. intros [= <-]. exists q0, x0. split; [exact Q0|]. split; [exact X0|reflexivity].
Qed.
Lemma doq_tls r h p c : r_protocol r = "doq" -> server r "8853" h p -> made w r = Some c ->
  secured w r h 771 c /\ exists e q t n, c = CDoq CA Cert e q t n (r_0rtt r).
Proof.
  intros PD S. rewrite (made_doq w r PD). pose proof (awd_server w r "8853" h p S (proj1 port_8853) (proj2 port_8853)) as SP.
  destruct (buildNetNS _ _) as [ns|]; [|discriminate]. destruct (Tls_model.TLSClientConfig _ _ _ _ _ _ _ _) as [t|] eqn:T; [|discriminate].
  apply Tls_proofs.client_iff in T. destruct T as (q0 & x0 & Q0 & X0 & ->). unfold newDoQClient. destruct (valid_endpoint _ _ _ _); [|discriminate].
  rewrite SP. destruct (quic_sockets _ _ _ _ _ _ _ _ _ _) as [q|]; [|discriminate]. intros [= <-]. split; [|eauto 6]. exists q0, x0. split; [exact Q0|]. split; [exact X0|reflexivity].
Qed.

(** Times and sizes *)
Lemma lasting_ok n : short n -> lasting n 2 (timeout_or_default (seconds n)).
Proof. intros SH. unfold lasting, timeout_or_default, defaultQueryTimeout. rewrite (seconds_ns _ SH). destruct (Z.eqb_spec (n * 1000000000) 0); lia. Qed.
Lemma known r c : made w r = Some c -> In (r_protocol r) ["tcp"; "udp"; "dot"; "dtls"; "doq"; "doh"; "odoh"].
Proof. intros M. destruct (in_dec string_dec (r_protocol r) ["tcp"; "udp"; "dot"; "dtls"; "doq"; "doh"; "odoh"]) as [I|N]; [exact I|]. rewrite (made_other w r N) in M. discriminate. Qed.
Lemma timing r c : made w r = Some c -> short (r_timeout r) -> lasting (r_timeout r) 2 (query_timeout CA Cert c).
Proof.
  intros M SH. pose proof (lasting_ok _ SH) as L. pose proof (known r c M) as K. cbn [In] in K.
  assert (PD : plain_dns r -> lasting (r_timeout r) 2 (query_timeout CA Cert c)).
  { intros P. revert M. rewrite (made_dns w r P). destruct (buildNetNS _ _) as [ns|]; [|discriminate]. unfold newDNSClient. destruct (valid_endpoint _ _ _ _); [|discriminate]. intros [= <-]. exact L. }
  destruct K as [K|[K|[K|[K|[K|[K|[K|[]]]]]]]]; symmetry in K; [apply PD; left; exact K|apply PD; right; exact K| | | | |]; clear PD; revert M.
  - rewrite (made_dot w r K). destruct (buildNetNS _ _) as [ns|]; [|discriminate]. destruct (Tls_model.TLSClientConfig _ _ _ _ _ _ _ _) as [t|]; [|discriminate]. unfold newDoTClient. destruct (valid_endpoint _ _ _ _); [|discriminate].
    destruct (String.eqb (r_boot r) ""); [|destruct (SplitHostPort _) as [(h, p)|]; [|discriminate]]; intros [= <-]; exact L.
  - rewrite (made_dtls w r K). destruct (buildNetNS _ _) as [ns|]; [|discriminate]. destruct (Tls_model.DTLSClientConfig _ _ _ _ _ _ _) as [t|]; [|discriminate]. unfold newDTLSClient. destruct (valid_endpoint _ _ _ _); [|discriminate].
    destruct (SplitHostPort _) as [(h, p)|]; [|discriminate]. destruct (atoi p); [|discriminate]. cbv zeta. destruct (String.eqb (r_boot r) ""); [destruct (w_lookup w h)|destruct (w_ip w (r_boot r))]; try discriminate; intros [= <-]; exact L.
  - rewrite (made_doq w r K). destruct (buildNetNS _ _) as [ns|]; [|discriminate]. destruct (Tls_model.TLSClientConfig _ _ _ _ _ _ _ _) as [t|]; [|discriminate]. unfold newDoQClient. destruct (valid_endpoint _ _ _ _); [|discriminate].
    destruct (SplitHostPort _) as [(h, p)|]; [|discriminate]. destruct (quic_sockets _ _ _ _ _ _ _ _ _ _); [|discriminate]. intros [= <-]. exact L.
  - rewrite (made_doh w r K). destruct (buildNetNS _ _) as [ns|]; [|discriminate]. destruct (Tls_model.TLSClientConfig _ _ _ _ _ _ _ _) as [t|]; [|discriminate]. destruct (newDoHClient _ _ _ _ _ _ _ _) as [d|] eqn:N; [|discriminate]. intros [= <-].
    destruct (newdoh_cases w r _ _ _ _ _ _ _ N) as (m & _ & _ & _ & T & _). unfold query_timeout. rewrite T. exact L.
  - rewrite (made_odoh w r K). destruct (buildNetNS _ _) as [ns|]; [|discriminate]. destruct (Tls_model.TLSClientConfig _ _ _ _ _ _ _ _) as [t|]; [|discriminate]. unfold newODoHClient. destruct (newDoHClient _ _ _ _ _ _ _ _) as [d|] eqn:N; [|discriminate]. destruct (w_url w (o_target r)); [|discriminate]. intros [= <-].
    destruct (newdoh_cases w r _ _ _ _ _ _ _ N) as (m & _ & _ & _ & T & _). unfold query_timeout. rewrite T. exact L.
Qed.
Lemma sizing r c : made w r = Some c -> udp_size CA Cert c = if existsb (String.eqb (r_protocol r)) ["tcp"; "udp"; "dtls"] then r_size r else 0%N.
Proof.
  intros M. pose proof (known r c M) as K. cbn [In] in K.
  assert (PD : plain_dns r -> udp_size CA Cert c = r_size r).
  { intros P. revert M. rewrite (made_dns w r P). destruct (buildNetNS _ _) as [ns|]; [|discriminate]. unfold newDNSClient. destruct (valid_endpoint _ _ _ _); [|discriminate]. intros [= <-]. reflexivity. }
  destruct K as [K|[K|[K|[K|[K|[K|[K|[]]]]]]]]; symmetry in K; rewrite K; cbn [existsb String.eqb Ascii.eqb Bool.eqb orb]; [apply PD; left; exact K|apply PD; right; exact K| | | | |]; clear PD; revert M.
  - rewrite (made_dot w r K). destruct (buildNetNS _ _) as [ns|]; [|discriminate]. destruct (Tls_model.TLSClientConfig _ _ _ _ _ _ _ _) as [t|]; [|discriminate]. unfold newDoTClient. destruct (valid_endpoint _ _ _ _); [|discriminate].
    destruct (String.eqb (r_boot r) ""); [|destruct (SplitHostPort _) as [(h, p)|]; [|discriminate]]; intros [= <-]; reflexivity.
  - rewrite (made_dtls w r K). destruct (buildNetNS _ _) as [ns|]; [|discriminate]. destruct (Tls_model.DTLSClientConfig _ _ _ _ _ _ _) as [t|]; [|discriminate]. unfold newDTLSClient. destruct (valid_endpoint _ _ _ _); [|discriminate].
    destruct (SplitHostPort _) as [(h, p)|]; [|discriminate]. destruct (atoi p); [|discriminate]. cbv zeta. destruct (String.eqb (r_boot r) ""); [destruct (w_lookup w h)|destruct (w_ip w (r_boot r))]; try discriminate; intros [= <-]; reflexivity.
  - rewrite (made_doq w r K). destruct (buildNetNS _ _) as [ns|]; [|discriminate]. destruct (Tls_model.TLSClientConfig _ _ _ _ _ _ _ _) as [t|]; [|discriminate]. unfold newDoQClient. destruct (valid_endpoint _ _ _ _); [|discriminate].
    destruct (SplitHostPort _) as [(h, p)|]; [|discriminate]. destruct (quic_sockets _ _ _ _ _ _ _ _ _ _); [|discriminate]. intros [= <-]. reflexivity.
  - rewrite (made_doh w r K). destruct (buildNetNS _ _) as [ns|]; [|discriminate]. destruct (Tls_model.TLSClientConfig _ _ _ _ _ _ _ _) as [t|]; [|discriminate]. destruct (newDoHClient _ _ _ _ _ _ _ _) as [d|]; [|discriminate]. intros [= <-]. reflexivity.
  - rewrite (made_odoh w r K). destruct (buildNetNS _ _) as [ns|]; [|discriminate]. destruct (Tls_model.TLSClientConfig _ _ _ _ _ _ _ _) as [t|]; [|discriminate]. unfold newODoHClient. destruct (newDoHClient _ _ _ _ _ _ _ _) as [d|]; [|discriminate]. destruct (w_url w (o_target r)); [|discriminate]. intros [= <-]. reflexivity.
Qed.
Lemma size_sent r c q : made w r = Some c -> plain_dns r -> Modifiers_spec.opt_wf q -> exists m, Client_spec.sized (r_size r) q m /\ Listener_spec.stripped m (Client_model.dns_query (udp_size CA Cert c) q).
Proof.
  intros M P W. rewrite (sizing r c M). destruct P as [E|E]; rewrite E; cbn [existsb String.eqb Ascii.eqb Bool.eqb orb]; apply Client_proofs2.plain_query; exact W.
Qed.
End P.
