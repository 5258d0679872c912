(** Resolvers by protocol. *)
From Verif Require Import Base Bytes Net Cidr_spec Cidr_model Net_spec Router_model Addr_model Addr_spec Base_proofs Net_proofs Addr_proofs RunNs_model XDial_model LSock_model Hostname_spec Hostname_model Hostname_proofs ListCfg_model Tls_spec ResCfg_model ResCfg_spec ResCfg_proofs ResCfg_proofs2.
From Verif Require Tls_model Tls_proofs Client_model Client_proofs.
Local Open Scope string_scope.

Lemma digits_atoi s : forall acc v, digits_value acc s = Some v -> atoi_digits (Z.of_N acc) s = Some (Z.of_N v).
Proof.
  induction s as [|c s IH]; intros acc v; cbn [digits_value atoi_digits]; [congruence|].
  rewrite digit_index. unfold digit. destruct ((48 <=? N_of_ascii c) && (N_of_ascii c <=? 57))%N; [|discriminate].
  intros H. rewrite N2Nat.id in H. rewrite <- (IH _ _ H). f_equal. lia.
Qed.
Lemma port_atoi p : port_ok p -> exists n, digits_value 0 p = Some n /\ (n <= 65535)%N /\ atoi p = Some (Z.of_N n).
Proof.
  intros (N & v & D & L). exists v. split; [exact D|]. split; [exact L|]. unfold atoi.
  destruct p as [|c p]; [contradiction|]. pose proof (digits_atoi _ _ _ D) as A. change (Z.of_N 0) with 0%Z in A.
  assert (NS : Ascii.eqb c "-" = false /\ Ascii.eqb c "+" = false).
  { cbn [digits_value] in D. rewrite digit_index in D. destruct ((48 <=? N_of_ascii c) && (N_of_ascii c <=? 57))%N eqn:R; [|discriminate].
    split; destruct (Ascii.eqb_spec c "-"), (Ascii.eqb_spec c "+"); subst; try reflexivity; discriminate R. }
  destruct NS as (-> & ->). unfold atoi_unsigned. rewrite A. destruct (_ && _)%bool eqn:R; [reflexivity|]. exfalso. lia.
Qed.

Section P.
Context {CA Cert : Type}.
Variable w : world CA Cert.
Hypothesis SANE : sane w.
Notation lip r := (w_ip w (r_local r)).
Notation lip4 r := (w_ip w (r_local4 r)).
Notation lip6 r := (w_ip w (r_local6 r)).
Notation tls_of_settings r := (Tls_model.TLSClientConfig CA Cert (w_pem w) (w_load w) (r_ca r) (r_crt r) (r_key r) (r_server r)).
Notation with_port r p := (AddressWithDefault (w_url w) (r_address r) p).
Notation newDoH := (newDoHClient CA Cert w).

(** ** instantiateResolver, protocol by protocol *)
Ltac start := unfold made, instantiateResolver; intros E; rewrite E; reflexivity.
Lemma made_dns r : plain_dns r -> made w r = match buildNetNS (r_netns r) (r_xsocket r) with None => None | Some ns =>
  newDNSClient CA Cert w (with_port r "53") (Generic (dialer_of w r ns) (r_protocol r) (lip r) (lip4 r) (lip6 r) (seconds (r_timeout r)) ns (options r)) (r_size r) end.
Proof. unfold plain_dns. intros [E|E]; revert E; start. Qed.
Lemma made_dot r : r_protocol r = "dot" -> made w r = match buildNetNS (r_netns r) (r_xsocket r) with None => None | Some ns =>
  match tls_of_settings r with None => None | Some c =>
    newDoTClient CA Cert w (with_port r "853") (r_boot r) (Generic (dialer_of w r ns) "tcp-tls" (lip r) (lip4 r) (lip6 r) 0 ns (options r)) c (seconds (r_timeout r)) end end.
Proof. start. Qed.
Lemma made_dtls r : r_protocol r = "dtls" -> made w r = match buildNetNS (r_netns r) (r_xsocket r) with None => None | Some ns =>
  match Tls_model.DTLSClientConfig CA Cert (w_pem w) (w_load w) (r_ca r) (r_crt r) (r_key r) with None => None | Some c =>
    newDTLSClient CA Cert w (with_port r "853") (r_boot r) (lip r) (lip4 r) (lip6 r) c (r_size r) (seconds (r_timeout r)) ns (options r) end end.
Proof. start. Qed.
Lemma made_doq r : r_protocol r = "doq" -> made w r = match buildNetNS (r_netns r) (r_xsocket r) with None => None | Some ns =>
  match tls_of_settings r with None => None | Some c =>
    newDoQClient CA Cert w (with_port r "8853") (r_boot r) (lip r) (lip4 r) (lip6 r) c (seconds (r_timeout r)) (r_0rtt r) ns (options r) end end.
Proof. start. Qed.
Lemma made_doh r : r_protocol r = "doh" -> made w r = match buildNetNS (r_netns r) (r_xsocket r) with None => None | Some ns =>
  match tls_of_settings r with None => None | Some c =>
    match newDoH (with_port r "443") (Client_model.DohCOpt (h_method r) (r_transport r) (r_0rtt r)) c (seconds (r_timeout r)) (doh_of w r ns (dialer_of w r ns)) with
    | None => None | Some d => Some (CDoh CA Cert d) end end end.
Proof. start. Qed.
Lemma made_odoh r : r_protocol r = "odoh" -> made w r = match buildNetNS (r_netns r) (r_xsocket r) with None => None | Some ns =>
  match tls_of_settings r with None => None | Some c =>
    newODoHClient CA Cert w (r_address r) (o_target r) (o_config r) (Client_model.DohCOpt (h_method r) (r_transport r) false) c (seconds (r_timeout r)) (doh_of w r ns None) end end.
Proof. start. Qed.
Lemma made_other r : ~ In (r_protocol r) ["tcp"; "udp"; "dot"; "dtls"; "doq"; "doh"; "odoh"] -> made w r = None.
Proof.
  intros N. unfold made, instantiateResolver. destruct (buildNetNS _ _); [|reflexivity]. cbn in N.
  repeat match goal with |- context [String.eqb (r_protocol r) ?s] => destruct (String.eqb_spec (r_protocol r) s); [exfalso; intuition congruence|] end. reflexivity.
Qed.

(** ** Endpoints and files *)
Lemma valid_iff e h p : SplitHostPort e = Some (h, p) -> (valid_endpoint CA Cert w e = true <-> good_server w h p).
Proof.
  intros S. unfold valid_endpoint, good_server. rewrite endpoint_iff. split.
  - intros (h' & p' & S' & P & I). rewrite S in S'. injection S' as <- <-. split; [exact P|]. destruct I as [I|I]; [left|right; exact I]. destruct (w_ip w h); [discriminate|discriminate].
  - intros (P & I). exists h, p. split; [exact S|]. split; [exact P|]. destruct I as [I|I]; [left|right; exact I]. destruct (w_ip w h); [contradiction|reflexivity].
Qed.
Lemma files_iff r : files w r <-> exists c, tls_of_settings r = Some c.
Proof.
  unfold files. split.
  - intros ((q & Q) & x & X). eexists. apply Tls_proofs.client_iff. exists q, x. split; [exact Q|]. split; [exact X|reflexivity].
  - intros (c & H). apply Tls_proofs.client_iff in H. destruct H as (q & x & Q & X & _). eauto.
Qed.
Lemma dfiles_iff r : files w r <-> exists c, Tls_model.DTLSClientConfig CA Cert (w_pem w) (w_load w) (r_ca r) (r_crt r) (r_key r) = Some c.
Proof.
  unfold files. split.
  - intros ((q & Q) & x & X). eexists. apply Tls_proofs.dclient_iff. exists q, x. split; [exact Q|]. split; [exact X|reflexivity].
  - intros (c & H). apply Tls_proofs.dclient_iff in H. destruct H as (q & x & Q & X & _). eauto.
Qed.

(** ** Plain DNS *)
Lemma port_53 : without ":" "53" /\ plain "53".
Proof. split; [|split]; apply without_iff; reflexivity. Qed.
Lemma port_853 : without ":" "853" /\ plain "853".
Proof. split; [|split]; apply without_iff; reflexivity. Qed.
Lemma port_8853 : without ":" "8853" /\ plain "8853".
Proof. split; [|split]; apply without_iff; reflexivity. Qed.

Lemma dns_starts r h p : plain_dns r -> server r "53" h p -> (made w r <> None <-> one_way r /\ good_server w h p).
Proof.
  intros PD S. rewrite (made_dns r PD). pose proof (awd_server w r "53" h p S (proj1 port_53) (proj2 port_53)) as SP. pose proof (valid_iff _ h p SP) as V. rewrite <- build_some.
  unfold newDNSClient. destruct (buildNetNS _ _) as [ns|]; [|split; [congruence|intros ((ns & H) & _); discriminate]].
  destruct (valid_endpoint _ _ _ _).
  - split; [intros _; split; [eauto|apply V; reflexivity]|discriminate].
  - split; [congruence|]. intros (_ & G). apply V in G. discriminate.
Qed.
Lemma dns_route r h p c a type : plain_dns r -> (r_protocol r = "udp" /\ type = Dgram \/ r_protocol r = "tcp" /\ type = Stream) -> server r "53" h p -> made w r = Some c ->
  exists e, connection w c a = Some e /\ (p_address r = "" -> direct w r type h p e) /\ (p_address r <> "" -> stays w r -> by_proxy w r type h p e).
Proof.
  intros PD T S. rewrite (made_dns r PD). pose proof (awd_server w r "53" h p S (proj1 port_53) (proj2 port_53)) as SP.
  destruct (buildNetNS _ _) as [ns|] eqn:B; [|discriminate]. apply build_iff in B. unfold newDNSClient. destruct (valid_endpoint _ _ _ _); [|discriminate]. intros [= <-].
  unfold connection, connect. apply (generic_ok w SANE r ns (r_protocol r) type _ _ h h p B).
  - destruct T as [(E & ->)|(E & ->)]; rewrite E; [right|left]; auto.
  - apply split_iff. exact SP.
  - right. auto.
Qed.

(** ** DoT *)
Lemma dot_starts r h p : r_protocol r = "dot" -> server r "853" h p -> (made w r <> None <-> one_way r /\ good_server w h p /\ files w r).
Proof.
  intros PD S. rewrite (made_dot r PD). pose proof (awd_server w r "853" h p S (proj1 port_853) (proj2 port_853)) as SP. pose proof (valid_iff _ h p SP) as V. rewrite <- build_some, files_iff.
  unfold newDoTClient. destruct (buildNetNS _ _) as [ns|]; [|split; [congruence|intros ((ns & H) & _); discriminate]].
  destruct (Tls_model.TLSClientConfig _ _ _ _ _ _ _ _) as [t|]; [|split; [congruence|intros (_ & _ & t & H); discriminate]].
  destruct (valid_endpoint _ _ _ _).
  - split; [intros _; split; [eauto|]; split; [apply V; reflexivity|eauto]|]. intros _. rewrite SP. destruct (String.eqb _ _); discriminate.
  - split; [congruence|]. intros (_ & G & _). apply V in G. discriminate.
Qed.
Lemma dot_route r h p c a : r_protocol r = "dot" -> plain (r_boot r) -> server r "853" h p -> made w r = Some c ->
  exists e, connection w c a = Some e /\ (p_address r = "" -> direct w r Stream h p e) /\ (p_address r <> "" -> stays w r -> by_proxy w r Stream h p e).
Proof.
  intros PD PB S. rewrite (made_dot r PD). pose proof (awd_server w r "853" h p S (proj1 port_853) (proj2 port_853)) as SP.
  destruct (buildNetNS _ _) as [ns|] eqn:B; [|discriminate]. apply build_iff in B. destruct (Tls_model.TLSClientConfig _ _ _ _ _ _ _ _) as [t|]; [|discriminate].
  unfold newDoTClient. destruct (valid_endpoint _ _ _ _); [|discriminate]. apply split_iff in SP as HP.
  assert (ND : ~ plain_dns r) by (unfold plain_dns; rewrite PD; intros [|]; discriminate).
  destruct (String.eqb_spec (r_boot r) "") as [E|N].
  - intros [= <-]. unfold connection, connect. apply (generic_ok w SANE r ns "tcp-tls" Stream _ _ h h p B); [left; auto|exact HP|right; auto].
  - rewrite SP. intros [= <-]. unfold connection, connect. apply (generic_ok w SANE r ns "tcp-tls" Stream _ _ h (r_boot r) p B); [left; auto| |left; auto].
    apply (join_hostport _ _ p HP). exact PB.
Qed.

(** ** DTLS *)
Lemma dtls_starts r h p : r_protocol r = "dtls" -> server r "853" h p ->
  (made w r <> None <-> one_way r /\ good_server w h p /\ files w r /\ exists ip, aimed w r h ip).
Proof.
  intros PD S. rewrite (made_dtls r PD). pose proof (awd_server w r "853" h p S (proj1 port_853) (proj2 port_853)) as SP. pose proof (valid_iff _ h p SP) as V. rewrite <- build_some, dfiles_iff.
  unfold newDTLSClient. destruct (buildNetNS _ _) as [ns|]; [|split; [congruence|intros ((ns & H) & _); discriminate]].
  destruct (Tls_model.DTLSClientConfig _ _ _ _ _ _ _) as [t|]; [|split; [congruence|intros (_ & _ & (t & H) & _); discriminate]].
  destruct (valid_endpoint _ _ _ _); [|split; [congruence|intros (_ & G & _); apply V in G; discriminate]].
  assert (G : good_server w h p) by (apply V; reflexivity). rewrite SP. destruct (port_atoi p (proj1 G)) as (n & _ & _ & ->). cbv zeta. unfold aimed.
  destruct (String.eqb_spec (r_boot r) "") as [E|N].
  - destruct (w_lookup w h) as [|ip l].
    + split; [congruence|]. intros (_ & _ & _ & ip & [(_ & l & H)|(H & _)]); [discriminate|contradiction].
    + split; [intros _|discriminate]. split; [eauto|]. split; [exact G|]. split; [eauto|]. exists ip. left. eauto.
  - destruct (w_ip w (r_boot r)) as [|b l] eqn:I.
    + split; [congruence|]. intros (_ & _ & _ & ip & [(H & _)|(_ & H & K)]); [contradiction|subst ip; contradiction].
    + split; [intros _|discriminate]. split; [eauto|]. split; [exact G|]. split; [eauto|]. exists (b :: l). right. split; [exact N|]. split; [reflexivity|discriminate].
Qed.
Lemma dtls_route r h p c a : r_protocol r = "dtls" -> server r "853" h p -> made w r = Some c ->
  exists e ip n got, connection w c a = Some e /\ aimed w r h ip /\ digits_value 0 p = Some n /\ sends r ip (Z.of_N n) got e /\ local w r (Some ip) got.
Proof.
  intros PD S. rewrite (made_dtls r PD). pose proof (awd_server w r "853" h p S (proj1 port_853) (proj2 port_853)) as SP. pose proof (valid_iff _ h p SP) as V.
  destruct (buildNetNS _ _) as [ns|] eqn:B; [|discriminate]. apply build_iff in B. destruct (Tls_model.DTLSClientConfig _ _ _ _ _ _ _) as [t|]; [|discriminate].
  unfold newDTLSClient. destruct (valid_endpoint _ _ _ _); [|discriminate]. destruct (proj1 V eq_refl) as (PO & _). rewrite SP. destruct (port_atoi p PO) as (n & D & _ & ->). cbv zeta.
  assert (F : forall ip t', ip_ok ip -> aimed w r h ip ->
    exists e ip' n' got, connection w (CDtls CA Cert (if v4b ip then match lip4 r with [] => lip r | _ => lip4 r end else match lip6 r with [] => lip r | _ => lip6 r end) (ip, Z.of_N n) t' (r_size r) (timeout_or_default (seconds (r_timeout r))) ns (options r)) a = Some e /\
      aimed w r h ip' /\ digits_value 0 p = Some n' /\ sends r ip' (Z.of_N n') got e /\ local w r (Some ip') got).
  { intros ip t' O A. unfold connection, connect. set (la := if v4b ip then _ else _). destruct (dtls_ok r ns la ip (Z.of_N n) B) as (e & E1 & E2).
    exists e, ip, n, la. split; [exact E1|]. split; [exact A|]. split; [exact D|]. split; [exact E2|]. subst la. unfold local, local_for.
    pose proof (v4b_iff ip O) as V4. destruct (v4b ip).
    - split; [intros _|intros K; exfalso; apply K, V4; reflexivity]. destruct (lip4 r); split; congruence.
    - split; [intros K; apply V4 in K; discriminate|intros _]. destruct (lip6 r); split; congruence. }
  destruct (String.eqb_spec (r_boot r) "") as [E|N].
  - destruct (w_lookup w h) as [|ip l] eqn:L; [discriminate|]. intros [= <-]. apply F; [|left; eauto]. apply (sane_lookup w SANE h ip). rewrite L. left. reflexivity.
  - destruct (w_ip w (r_boot r)) as [|b l] eqn:I; [discriminate|]. intros [= <-]. apply F; [|right; rewrite I; split; [exact N|]; split; [reflexivity|discriminate]].
    destruct (sane_ip w SANE (r_boot r)) as [K|K]; [rewrite I in K; discriminate|]. rewrite I in K. exact K.
Qed.

(** ** DoQ *)
Lemma doq_starts r h p : (forall s, w_bind w s = true) -> r_protocol r = "doq" -> server r "8853" h p -> (made w r <> None <-> one_way r /\ good_server w h p /\ files w r).
Proof.
  intros BI PD S. rewrite (made_doq r PD). pose proof (awd_server w r "8853" h p S (proj1 port_8853) (proj2 port_8853)) as SP. pose proof (valid_iff _ h p SP) as V. rewrite <- build_some, files_iff.
  unfold newDoQClient. destruct (buildNetNS _ _) as [ns|] eqn:B; [|split; [congruence|intros ((ns & H) & _); discriminate]]. apply build_iff in B.
  destruct (Tls_model.TLSClientConfig _ _ _ _ _ _ _ _) as [t|]; [|split; [congruence|intros (_ & _ & t & H); discriminate]].
  destruct (valid_endpoint _ _ _ _).
  - rewrite SP. destruct (sockets_some w r ns "udp" "udp" B BI) as (q & ->). split; [intros _; split; [eauto|]; split; [apply V; reflexivity|eauto]|discriminate].
  - split; [congruence|]. intros (_ & G & _). apply V in G. discriminate.
Qed.
Lemma doq_route r h p c a : r_protocol r = "doq" -> plain (r_boot r) -> server r "8853" h p -> made w r = Some c ->
  quic_route w r h p c a.
Proof.
  intros PD PB S. unfold quic_route. rewrite (made_doq r PD). pose proof (awd_server w r "8853" h p S (proj1 port_8853) (proj2 port_8853)) as SP.
  destruct (buildNetNS _ _) as [ns|] eqn:B; [|discriminate]. apply build_iff in B. destruct (Tls_model.TLSClientConfig _ _ _ _ _ _ _ _) as [t|]; [|discriminate].
  unfold newDoQClient. destruct (valid_endpoint _ _ _ _); [|discriminate]. rewrite SP. destruct (quic_sockets _ _ _ _ _ _ _ _ _ _) as [q|] eqn:Q; [|discriminate]. intros [= <-].
  apply split_iff in SP as HP. assert (ND : ~ plain_dns r) by (unfold plain_dns; rewrite PD; intros [|]; discriminate).
  assert (F : forall t x, instead r h t -> hostport x t p -> x = (if String.eqb (r_boot r) "" then with_port r "8853" else JoinHostPort (r_boot r) p) -> exists t x, instead r h t /\ hostport x t p /\
    (w_udp w x = None -> quic_send CA Cert w q (if String.eqb (r_boot r) "" then with_port r "8853" else JoinHostPort (r_boot r) p) = None) /\
    forall ip port, w_udp w x = Some (ip, port) -> ip_ok ip -> exists e got, quic_send CA Cert w q (if String.eqb (r_boot r) "" then with_port r "8853" else JoinHostPort (r_boot r) p) = Some e /\ sends r ip port got e /\ quic_local w r ip got).
  { intros t' x I X <-. exists t', x. split; [exact I|]. split; [exact X|]. split; [intros U; unfold quic_send; rewrite U; reflexivity|].
    intros ip port U O. exact (quic_ok w r ns _ _ q x ip port B Q U O). }
  unfold connection, connect. destruct (String.eqb_spec (r_boot r) "") as [E|N].
  - apply (F h (with_port r "8853")); [right; auto|exact HP|reflexivity].
  - apply (F (r_boot r) (JoinHostPort (r_boot r) p)); [left; auto|apply (join_hostport _ _ p HP); exact PB|reflexivity].
Qed.

(** ** DoH *)
Lemma seconds_ns n : short n -> seconds n = (n * 1000000000)%Z.
Proof. unfold short, seconds. intros H. rewrite Z.mod_small by lia. lia. Qed.
Lemma short_idle z : short z -> (seconds z <? 0 = false <-> 0 <= z)%Z.
Proof. intros (A & B). rewrite seconds_ns; [|split; assumption]. lia. Qed.
Lemma newdoh_iff r url early t timeout o : (forall s, w_bind w s = true) -> short (h_idle r) -> t_idle o = seconds (h_idle r) ->
  (exists ns d, ns_of r ns /\ o = doh_of w r ns d) -> (newDoH url (Client_model.DohCOpt (h_method r) (r_transport r) early) t timeout o <> None <-> doh_options w r early url).
Proof.
  intros BI SH TI (ns & d & NS & ->). unfold newDoHClient, doh_options. rewrite TI. pose proof (short_idle _ SH) as SI.
  destruct (seconds (h_idle r) <? 0)%Z; [split; [congruence|]; intros (K & _); apply SI in K; discriminate|].
  destruct (w_template w url) as [names|]; [|split; [congruence|]; intros (_ & _ & _ & _ & names & K & _); discriminate].
  set (hd := existsb (String.eqb "dns") names). assert (HD : hd = true <-> In "dns" names).
  { unfold hd. rewrite existsb_exists. split; [intros (x & I & E); apply String.eqb_eq in E; subst x; exact I|]. intros I. exists "dns". split; [exact I|reflexivity]. }
  pose proof (Client_proofs.doh_method hd (Client_model.DohCOpt (h_method r) (r_transport r) early)) as M. cbn [Client_model.dc_method Client_model.dc_transport Client_model.dc_0rtt] in M. cbv zeta in M. destruct M as (M & _).
  assert (M' : In (r_transport r) [""; "tcp"; "quic"] /\ In (h_method r) [""; "POST"; "GET"] /\ (early = true -> r_transport r = "quic" /\ In "dns" names /\ h_method r <> "POST") <-> Client_model.newDoHClient hd (Client_model.DohCOpt (h_method r) (r_transport r) early) <> None).
  { rewrite M, <- HD. cbn [In]. tauto. }
  destruct (Client_model.newDoHClient hd _) as [m'|].
  - cbn [Client_model.dc_transport]. destruct M' as (_ & M'). specialize (M' ltac:(discriminate)). destruct M' as (A1 & A2 & A3).
    destruct (String.eqb_spec (r_transport r) "quic") as [E|N].
    + destruct (w_url w url) as [u|].
      * change (t_ns (doh_of w r ns d)) with ns. change (t_local (doh_of w r ns d)) with (lip r). change (t_local4 (doh_of w r ns d)) with (lip4 r). change (t_local6 (doh_of w r ns d)) with (lip6 r). change (t_opts (doh_of w r ns d)) with (options r).
        destruct (sockets_some w r ns "udp4" "udp6" NS BI) as (q & ->). split; [intros _|discriminate]. split; [apply SI; reflexivity|]. split; [exact A1|]. split; [exact A2|]. split; [eauto|]. exists names. auto.
      * split; [congruence|]. intros (_ & _ & _ & K & _). destruct (K E) as (u & H). discriminate.
    + split; [intros _|discriminate]. split; [apply SI; reflexivity|]. split; [exact A1|]. split; [exact A2|]. split; [contradiction|]. exists names. auto.
  - split; [congruence|]. intros (_ & A1 & A2 & _ & n & [= <-] & A3). destruct M' as (M' & _). exfalso. apply M'; auto.
Qed.
Lemma doh_starts r : (forall s, w_bind w s = true) -> short (h_idle r) -> r_protocol r = "doh" ->
  (made w r <> None <-> one_way r /\ files w r /\ doh_options w r (r_0rtt r) (with_port r "443")).
Proof.
  intros BI SH PD. rewrite (made_doh r PD), <- build_some, files_iff. destruct (buildNetNS _ _) as [ns|] eqn:B; [|split; [congruence|intros ((ns & H) & _); discriminate]]. apply build_iff in B.
  destruct (Tls_model.TLSClientConfig _ _ _ _ _ _ _ _) as [t|]; [|split; [congruence|intros (_ & (t & H) & _); discriminate]].
  pose proof (newdoh_iff r (with_port r "443") (r_0rtt r) t (seconds (r_timeout r)) (doh_of w r ns (dialer_of w r ns)) BI SH eq_refl (ex_intro _ ns (ex_intro _ _ (conj B eq_refl)))) as I. rewrite <- I.
  destruct (newDoH _ _ _ _ _).
  - split; [intros _|discriminate]. split; [eauto|]. split; [eauto|discriminate].
  - split; [congruence|]. intros (_ & _ & K). congruence.
Qed.
Lemma odoh_starts r : (forall s, w_bind w s = true) -> short (h_idle r) -> r_protocol r = "odoh" ->
  (made w r <> None <-> one_way r /\ files w r /\ doh_options w r false (if String.eqb (r_address r) "" then o_target r else r_address r) /\ exists u, w_url w (o_target r) = Some u).
Proof.
  intros BI SH PD. rewrite (made_odoh r PD), <- build_some, files_iff. destruct (buildNetNS _ _) as [ns|] eqn:B; [|split; [congruence|intros ((ns & H) & _); discriminate]]. apply build_iff in B.
  destruct (Tls_model.TLSClientConfig _ _ _ _ _ _ _ _) as [t|]; [|split; [congruence|intros (_ & (t & H) & _); discriminate]].
  pose proof (newdoh_iff r (if String.eqb (r_address r) "" then o_target r else r_address r) false t (seconds (r_timeout r)) (doh_of w r ns None) BI SH eq_refl (ex_intro _ ns (ex_intro _ _ (conj B eq_refl)))) as I. rewrite <- I.
  unfold newODoHClient. destruct (newDoH _ _ _ _ _).
  - destruct (w_url w (o_target r)) as [u|].
    + split; [intros _|discriminate]. split; [eauto|]. split; [eauto|]. split; [discriminate|eauto].
    + split; [congruence|]. intros (_ & _ & _ & u & H). discriminate.
  - split; [congruence|]. intros (_ & _ & K & _). congruence.
Qed.

(** What NewDoHClient makes *)
Lemma newdoh_cases r url early t timeout ns d c : newDoH url (Client_model.DohCOpt (h_method r) (r_transport r) early) t timeout (doh_of w r ns d) = Some c ->
  exists m, method r early m /\ d_opt CA Cert c = Client_model.DohCOpt m (r_transport r) early /\ d_url CA Cert c = url /\ d_timeout CA Cert c = timeout_or_default timeout /\
    ((r_transport r <> "quic" /\ d_tls CA Cert c = t /\ d_transport CA Cert c = OverTcp (if Z.eqb (seconds (h_idle r)) 0 then defaultDoHIdleTimeout else seconds (h_idle r)) (doh_of w r ns d)) \/
     (r_transport r = "quic" /\ exists u q, w_url w url = Some u /\ d_tls CA Cert c = Tls_model.with_name CA Cert t (u_hostname u) /\
        quic_sockets CA Cert w "udp4" "udp6" ns (lip r) (lip4 r) (lip6 r) (options r) = Some q /\ d_transport CA Cert c = OverQuic (seconds (h_idle r)) q (doh_of w r ns d) early)).
Proof.
  unfold newDoHClient. change (t_idle (doh_of w r ns d)) with (seconds (h_idle r)). destruct (seconds (h_idle r) <? 0)%Z; [discriminate|].
  destruct (w_template w url) as [names|]; [|discriminate]. set (hd := existsb _ names).
  set (o := Client_model.DohCOpt (h_method r) (r_transport r) early). pose proof (Client_proofs.doh_options hd o) as OP. pose proof (proj2 (Client_proofs.doh_method hd o)) as ME.
  destruct (Client_model.newDoHClient hd o) as [m'|]; [|discriminate]. destruct (OP _ eq_refl) as (O1 & O2 & _). destruct (ME _ eq_refl) as (M1 & M2).
  cbn [o Client_model.dc_method Client_model.dc_transport Client_model.dc_0rtt] in O1, O2, M1, M2.
  assert (D : method r early (Client_model.dc_method m')).
  { unfold method. destruct (String.eqb_spec (h_method r) "") as [E|N]; [right|left]; auto. }
  assert (OO : m' = Client_model.DohCOpt (Client_model.dc_method m') (r_transport r) early) by (destruct m'; cbn in *; congruence).
  cbn [o Client_model.dc_transport Client_model.dc_0rtt]. change (t_ns (doh_of w r ns d)) with ns. change (t_local (doh_of w r ns d)) with (lip r). change (t_local4 (doh_of w r ns d)) with (lip4 r). change (t_local6 (doh_of w r ns d)) with (lip6 r). change (t_opts (doh_of w r ns d)) with (options r).
  destruct (String.eqb_spec (r_transport r) "quic") as [E|N].
  - destruct (w_url w url) as [u|]; [|discriminate]. destruct (quic_sockets _ _ _ _ _ _ _ _ _ _) as [q|] eqn:Q; [|discriminate]. intros [= <-].
    exists (Client_model.dc_method m'). cbn [d_opt d_url d_timeout d_tls d_transport]. split; [exact D|]. split; [exact OO|]. split; [reflexivity|]. split; [reflexivity|]. right. split; [exact E|]. exists u, q. auto.
  - intros [= <-]. exists (Client_model.dc_method m'). cbn [d_opt d_url d_timeout d_tls d_transport]. split; [exact D|]. split; [exact OO|]. split; [reflexivity|]. split; [reflexivity|]. left. auto.
Qed.

Lemma over_quic r ns d q idle early a h p c : ns_of r ns -> ~ plain_dns r -> plain (r_boot r) -> hostport a h p ->
  quic_sockets CA Cert w "udp4" "udp6" ns (lip r) (lip4 r) (lip6 r) (options r) = Some q -> connection w c a = transport_dial CA Cert w (OverQuic idle q (doh_of w r ns d) early) a ->
  quic_route w r h p c a.
Proof.
  intros NS ND PB H Q C. unfold quic_route. rewrite C. unfold transport_dial, doh3_dial. destruct (bootstrapped_ok r a h p H ND PB) as (x & t & B & I & X). change (t_boot (doh_of w r ns d)) with (r_boot r). rewrite B.
  exists t, x. split; [exact I|]. split; [exact X|]. split; [intros U; unfold quic_send; rewrite U; reflexivity|]. intros ip port U O. exact (quic_ok w r ns _ _ q x ip port NS Q U O).
Qed.
Lemma doh_tcp_route r c a h p : r_protocol r = "doh" -> r_transport r <> "quic" -> plain (r_boot r) -> hostport a h p -> made w r = Some c ->
  exists e, connection w c a = Some e /\ (p_address r = "" -> direct w r Stream h p e \/ by_itself w r a e) /\ (p_address r <> "" -> stays w r -> by_proxy w r Stream h p e).
Proof.
  intros PD NQ PB H. rewrite (made_doh r PD). destruct (buildNetNS _ _) as [ns|] eqn:B; [|discriminate]. apply build_iff in B. destruct (Tls_model.TLSClientConfig _ _ _ _ _ _ _ _) as [t|]; [|discriminate].
  destruct (newDoH _ _ _ _ _) as [d|] eqn:N; [|discriminate]. intros [= <-]. destruct (newdoh_cases _ _ _ _ _ _ _ _ N) as (m & _ & _ & _ & _ & [(_ & _ & T)|(K & _)]); [|contradiction].
  unfold connection, connect. rewrite T. unfold transport_dial. assert (ND : ~ plain_dns r) by (unfold plain_dns; rewrite PD; intros [|]; discriminate).
  destruct (doh_tcp_ok w SANE r ns (dialer_of w r ns) a h p B ND PB H (or_intror eq_refl)) as (e & E1 & E2 & E3). exists e. split; [exact E1|]. split; [|intros PA ST; apply E3; auto].
  intros PA. pose proof (dialer_none w r ns PA) as DN. destruct (E2 DN) as [D|(C & E)]; [left; exact D|right]. split; [|exact E]. apply custom_not in C; [|exact B]. unfold unset. tauto.
Qed.
Lemma odoh_tcp_route r c a h p : r_protocol r = "odoh" -> r_transport r <> "quic" -> plain (r_boot r) -> hostport a h p -> made w r = Some c ->
  exists e, connection w c a = Some e /\ (direct w r Stream h p e \/ by_itself w r a e).
Proof.
  intros PD NQ PB H. rewrite (made_odoh r PD). destruct (buildNetNS _ _) as [ns|] eqn:B; [|discriminate]. apply build_iff in B. destruct (Tls_model.TLSClientConfig _ _ _ _ _ _ _ _) as [t|]; [|discriminate].
  unfold newODoHClient. destruct (newDoH _ _ _ _ _) as [d|] eqn:N; [|discriminate]. destruct (w_url w (o_target r)) as [u|]; [|discriminate]. intros [= <-].
  destruct (newdoh_cases _ _ _ _ _ _ _ _ N) as (m & _ & _ & _ & _ & [(_ & _ & T)|(K & _)]); [|contradiction].
  unfold connection, connect. rewrite T. unfold transport_dial. assert (ND : ~ plain_dns r) by (unfold plain_dns; rewrite PD; intros [|]; discriminate).
  destruct (doh_tcp_ok w SANE r ns None a h p B ND PB H (or_introl eq_refl)) as (e & E1 & E2 & E3). exists e. split; [exact E1|].
  destruct (E2 eq_refl) as [D|(C & E)]; [left; exact D|right]. split; [|exact E]. apply custom_not in C; [|exact B]. unfold unset. tauto.
Qed.
Lemma http3_route r c a h p : (r_protocol r = "doh" \/ r_protocol r = "odoh") -> r_transport r = "quic" -> plain (r_boot r) -> hostport a h p -> made w r = Some c -> quic_route w r h p c a.
Proof.
  intros PD TQ PB H. assert (ND : ~ plain_dns r) by (unfold plain_dns; destruct PD as [PD|PD]; rewrite PD; intros [|]; discriminate).
  destruct PD as [PD|PD].
  - rewrite (made_doh r PD). destruct (buildNetNS _ _) as [ns|] eqn:B; [|discriminate]. apply build_iff in B. destruct (Tls_model.TLSClientConfig _ _ _ _ _ _ _ _) as [t|]; [|discriminate].
    destruct (newDoH _ _ _ _ _) as [d|] eqn:N; [|discriminate]. intros [= <-]. destruct (newdoh_cases _ _ _ _ _ _ _ _ N) as (m & _ & _ & _ & _ & [(K & _)|(_ & u & q & _ & _ & Q & T)]); [contradiction|].
    eapply over_quic; [exact B|exact ND|exact PB|exact H|exact Q|]. unfold connection, connect. rewrite T. reflexivity.
  - rewrite (made_odoh r PD). destruct (buildNetNS _ _) as [ns|] eqn:B; [|discriminate]. apply build_iff in B. destruct (Tls_model.TLSClientConfig _ _ _ _ _ _ _ _) as [t|]; [|discriminate].
    unfold newODoHClient. destruct (newDoH _ _ _ _ _) as [d|] eqn:N; [|discriminate]. destruct (w_url w (o_target r)) as [u'|]; [|discriminate]. intros [= <-].
    destruct (newdoh_cases _ _ _ _ _ _ _ _ N) as (m & _ & _ & _ & _ & [(K & _)|(_ & u & q & _ & _ & Q & T)]); [contradiction|].
    eapply over_quic; [exact B|exact ND|exact PB|exact H|exact Q|]. unfold connection, connect. rewrite T. reflexivity.
Qed.
End P.
