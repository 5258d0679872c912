(** C90: resolvers do what their settings say *)
From Verif Require Import Base Bytes Dns Net Cidr_spec Net_spec Addr_model Addr_spec XDial_model LSock_model Hostname_spec Tls_spec ResCfg_model ResCfg_spec ResCfg_proofs ResCfg_proofs2 ResCfg_proofs3 ResCfg_proofs4 ResCfg_demo.
From Verif Require Tls_model Client_model Client_spec Modifiers_spec Listener_spec.
Local Open Scope string_scope.

(** UDP and TCP: one socket of that kind to the server or, if a proxy is set, one connection to the proxy, which is asked for the server; in the namespace or through the helper that is set, with the mark and the interface that are set, from the local address that is set. *)
Theorem C90_plain : forall (CA Cert : Type) (w : world CA Cert), sane w -> forall r h p c a type,
  plain_dns r -> (r_protocol r = "udp" /\ type = Dgram \/ r_protocol r = "tcp" /\ type = Stream) -> server r "53" h p -> made w r = Some c ->
  exists e, connection w c a = Some e /\ (p_address r = "" -> direct w r type h p e) /\ (p_address r <> "" -> stays w r -> by_proxy w r type h p e).
Proof. intros CA Cert w S. exact (dns_route w S). Qed.
Print Assumptions C90_plain.

(** DoT: the same over TCP, with the bootstrap address in place of the server. *)
Theorem C90_dot : forall (CA Cert : Type) (w : world CA Cert), sane w -> forall r h p c a,
  r_protocol r = "dot" -> plain (r_boot r) -> server r "853" h p -> made w r = Some c ->
  exists e, connection w c a = Some e /\ (p_address r = "" -> direct w r Stream h p e) /\ (p_address r <> "" -> stays w r -> by_proxy w r Stream h p e).
Proof. intros CA Cert w S. exact (dot_route w S). Qed.
Print Assumptions C90_dot.

(** DTLS: one UDP socket, from the local address for the family of the server. *)
Theorem C90_dtls : forall (CA Cert : Type) (w : world CA Cert), sane w -> forall r h p c a,
  r_protocol r = "dtls" -> server r "853" h p -> made w r = Some c ->
  exists e ip n got, connection w c a = Some e /\ aimed w r h ip /\ digits_value 0 p = Some n /\ sends r ip (Z.of_N n) got e /\ local w r (Some ip) got.
Proof. intros CA Cert w S. exact (dtls_route w S). Qed.
Print Assumptions C90_dtls.

(** DoQ: one UDP socket, which sends to the address of the server or of the bootstrap address. *)
Theorem C90_doq : forall (CA Cert : Type) (w : world CA Cert) r h p c a,
  r_protocol r = "doq" -> plain (r_boot r) -> server r "8853" h p -> made w r = Some c -> quic_route w r h p c a.
Proof. intros CA Cert w. exact (doq_route w). Qed.
Print Assumptions C90_doq.

(** DoH over TCP, for every address that net/http connects to. Without any setting for connections net/http connects by itself. *)
Theorem C90_doh : forall (CA Cert : Type) (w : world CA Cert), sane w -> forall r c a h p,
  r_protocol r = "doh" -> r_transport r <> "quic" -> plain (r_boot r) -> hostport a h p -> made w r = Some c ->
  exists e, connection w c a = Some e /\ (p_address r = "" -> direct w r Stream h p e \/ by_itself w r a e) /\ (p_address r <> "" -> stays w r -> by_proxy w r Stream h p e).
Proof. intros CA Cert w S. exact (doh_tcp_route w S). Qed.
Print Assumptions C90_doh.

(** ODoH over TCP: the same, never with a proxy. *)
Theorem C90_odoh : forall (CA Cert : Type) (w : world CA Cert), sane w -> forall r c a h p,
  r_protocol r = "odoh" -> r_transport r <> "quic" -> plain (r_boot r) -> hostport a h p -> made w r = Some c ->
  exists e, connection w c a = Some e /\ (direct w r Stream h p e \/ by_itself w r a e).
Proof. intros CA Cert w S. exact (odoh_tcp_route w S). Qed.
Print Assumptions C90_odoh.

(** DoH and ODoH over QUIC. *)
Theorem C90_http3 : forall (CA Cert : Type) (w : world CA Cert) r c a h p,
  (r_protocol r = "doh" \/ r_protocol r = "odoh") -> r_transport r = "quic" -> plain (r_boot r) -> hostport a h p -> made w r = Some c -> quic_route w r h p c a.
Proof. intros CA Cert w. exact (http3_route w). Qed.
Print Assumptions C90_http3.

(** Exactly these resolvers are made. *)
Theorem C90_starts : forall (CA Cert : Type) (w : world CA Cert) r h p, sane w -> (forall s, w_bind w s = true) ->
  (plain_dns r -> server r "53" h p -> (made w r <> None <-> one_way r /\ good_server w h p)) /\
  (r_protocol r = "dot" -> server r "853" h p -> (made w r <> None <-> one_way r /\ good_server w h p /\ files w r)) /\
  (r_protocol r = "dtls" -> server r "853" h p -> (made w r <> None <-> one_way r /\ good_server w h p /\ files w r /\ exists ip, aimed w r h ip)) /\
  (r_protocol r = "doq" -> server r "8853" h p -> (made w r <> None <-> one_way r /\ good_server w h p /\ files w r)) /\
  (~ In (r_protocol r) ["tcp"; "udp"; "dot"; "dtls"; "doq"; "doh"; "odoh"] -> made w r = None).
Proof.
  exact (fun CA Cert w r h p S B => conj (dns_starts w r h p) (conj (dot_starts w r h p) (conj (dtls_starts w r h p) (conj (doq_starts w r h p B) (made_other w r))))).
Qed.
Print Assumptions C90_starts.
Theorem C90_starts_https : forall (CA Cert : Type) (w : world CA Cert) r,
  (forall s, w_bind w s = true) -> short (h_idle r) -> (r_protocol r = "doh" \/ r_protocol r = "odoh") ->
  exists url, talks_to w r url /\
    (made w r <> None <-> one_way r /\ files w r /\ doh_options w r (early r) url /\
       (r_protocol r = "odoh" -> exists u, w_url w (o_target r) = Some u)).
Proof. intros CA Cert w. exact (https_starts w). Qed.
Print Assumptions C90_starts_https.

(** DoH and ODoH: URL, method, transport, 0-RTT, idle timeout, TLS and the target. *)
Theorem C90_https : forall (CA Cert : Type) (w : world CA Cert) r c,
  (r_protocol r = "doh" \/ r_protocol r = "odoh") -> made w r = Some c -> short (h_idle r) ->
  exists d url m, talks_to w r url /\ (r_protocol r = "doh" -> c = CDoh CA Cert d) /\
    (r_protocol r = "odoh" -> exists u, w_url w (o_target r) = Some u /\ c = COdoh CA Cert d (u_hostname u) (u_port u) (w_path w (o_target r)) (o_config r)) /\
    d_url CA Cert d = url /\ method r (early r) m /\ d_opt CA Cert d = Client_model.DohCOpt m (r_transport r) (early r) /\
    (r_transport r <> "quic" -> exists idle o, d_transport CA Cert d = OverTcp idle o /\ lasting (h_idle r) 30 idle) /\
    (r_transport r = "quic" -> exists q o, d_transport CA Cert d = OverQuic (h_idle r * 1000000000)%Z q o (early r)) /\
    (r_transport r <> "quic" -> secured w r (r_server r) 771 c) /\
    (r_transport r = "quic" -> exists u, w_url w url = Some u /\ secured w r (u_hostname u) 771 c).
Proof. intros CA Cert w. exact (https_made w). Qed.
Print Assumptions C90_https.

(** The others: authorities and certificate of the files, the name as C71 says; 0-RTT for DoQ. *)
Theorem C90_tls : forall (CA Cert : Type) (w : world CA Cert) r h p c, made w r = Some c ->
  (r_protocol r = "dot" -> server r "853" h p -> secured w r (if String.eqb (r_boot r) "" then r_server r else h) 771 c) /\
  (r_protocol r = "dtls" -> server r "853" h p -> secured w r (if String.eqb (r_boot r) "" then "" else h) 0 c) /\
  (r_protocol r = "doq" -> server r "8853" h p -> secured w r h 771 c /\ exists e q t n, c = CDoq CA Cert e q t n (r_0rtt r)).
Proof. exact (fun CA Cert w r h p c M => conj (fun E S => dot_tls w r h p c E S M) (conj (fun E S => dtls_tls w r h p c E S M) (fun E S => doq_tls w r h p c E S M))). Qed.
Print Assumptions C90_tls.

(** Every query may take the time set, or 2 seconds. *)
Theorem C90_timeout : forall (CA Cert : Type) (w : world CA Cert) r c, made w r = Some c -> short (r_timeout r) -> lasting (r_timeout r) 2 (query_timeout CA Cert c).
Proof. intros CA Cert w. exact (timing w). Qed.
Print Assumptions C90_timeout.

(** edns0-udp-size is announced over UDP, TCP and DTLS, and by no other. *)
Theorem C90_size : forall (CA Cert : Type) (w : world CA Cert) r c, made w r = Some c ->
  udp_size CA Cert c = (if existsb (String.eqb (r_protocol r)) ["tcp"; "udp"; "dtls"] then r_size r else 0%N) /\
  (plain_dns r -> forall q, Modifiers_spec.opt_wf q -> exists m, Client_spec.sized (r_size r) q m /\ Listener_spec.stripped m (Client_model.dns_query (udp_size CA Cert c) q)).
Proof. exact (fun CA Cert w r c M => conj (sizing w r c M) (fun P q => size_sent w r c q M P)). Qed.
Print Assumptions C90_size.

(** Proxies are not used by DoQ, DTLS, ODoH and DoH over QUIC. *)
Theorem C90_no_proxy : forall (CA Cert : Type) (w : world CA Cert) r c a e,
  made w r = Some c -> In (r_protocol r) ["doq"; "dtls"; "odoh"] \/ (r_protocol r = "doh" /\ r_transport r = "quic") ->
  connection w c a = Some e -> e_asked e = None /\ exists k, e_conns e = [k].
Proof. intros CA Cert w. exact (unproxied w). Qed.
Print Assumptions C90_no_proxy.

(** A proxy that is set is used: not so, these connect to the server. *)
Theorem C90_proxy_refuted : sane demo_w /\ forall proto transport, In (proto, transport) [("doq", ""); ("dtls", ""); ("odoh", ""); ("doh", "quic")] ->
  exists r e, r_protocol r = proto /\ r_transport r = transport /\ p_address r = "192.0.2.7:1080" /\ demo_reach r "dns.example:443" = Some e /\ e_asked e = None /\
    forall k, In k (e_conns e) -> n_peer k <> Text (p_address r).
Proof. exact (conj demo_sane proxy_ignored). Qed.
Print Assumptions C90_proxy_refuted.
(** A bootstrap address is used instead of a lookup: not so for plain DNS. *)
Theorem C90_bootstrap_refuted : exists r k, r_protocol r = "tcp" /\ r_boot r = "192.0.2.7" /\ demo_reach r "" = Some (Reach [k] None) /\ n_peer k = Text "192.0.2.1:53".
Proof. exact bootstrap_ignored. Qed.
Print Assumptions C90_bootstrap_refuted.
(** A local address that is none is refused: not so, it is ignored. *)
Theorem C90_local_refuted : exists r k, r_local r = "192.0.2.300" /\ w_ip demo_w (r_local r) = [] /\ demo_reach r "" = Some (Reach [k] None) /\ n_local k = [].
Proof. exact local_ignored. Qed.
Print Assumptions C90_local_refuted.
(** A connection comes from an address of the family it goes to: not so with a proxy, where the target decides, and not so with QUIC. *)
Theorem C90_family_refuted : exists r k ks ask, p_address r = "[2001:db8::7]:1080" /\ w_ip demo_w (r_local6 r) = ip6 7 /\
  demo_reach r "" = Some (Reach (k :: ks) ask) /\ n_peer k = Text (p_address r) /\ n_local k = ip4 7.
Proof. exact local_of_target. Qed.
Print Assumptions C90_family_refuted.
Theorem C90_quic_family_refuted : exists r k, w_ip demo_w (r_local6 r) = ip6 7 /\ w_ip demo_w (r_local r) = ip4 7 /\
  demo_reach r "" = Some (Reach [k] None) /\ n_peer k = Ip (ip4 1) 8853 /\ n_local k = ip6 7.
Proof. exact quic_wrong_family. Qed.
Print Assumptions C90_quic_family_refuted.
(** All sockets are made in the namespace that is set: not so with a mark and a proxy given by a name with addresses of both families. *)
Theorem C90_netns_refuted : exists r k ks ask, r_netns r = "blue" /\ r_mark r = 1%N /\ both_families demo_w (p_address r) /\
  demo_reach r "" = Some (Reach (k :: ks) ask) /\ n_place k = Here.
Proof. exact leaves_ns. Qed.
Print Assumptions C90_netns_refuted.

(** ** Cases *)
Example C90_ex_server : server (demo "dot" "dns.example" "" "192.0.2.7" "" "" "" "blue" 1 "") "853" "dns.example" "853" /\ plain "192.0.2.7" /\
  stays demo_w (demo "tcp" "dns.example" "" "" "" "" "" "blue" 1 "192.0.2.7:1080").
Proof.
  split; [|split; [split; apply Addr_proofs.without_iff; reflexivity|]].
  - split; [apply Addr_proofs.without_iff; reflexivity|]. split; [apply Addr_proofs.without_iff; reflexivity|]. left.
    split; [apply Addr_proofs.without_iff; reflexivity|]. split; [split; apply Addr_proofs.without_iff; reflexivity|]. split; reflexivity.
  - right. right. intros (h & p & H & N & _). apply Addr_proofs.split_iff in H. injection H as <- <-. discriminate N.
Qed.
Example C90_ex_dot : demo_reach (demo "dot" "dns.example" "" "192.0.2.7" "" "192.0.2.1" "" "blue" 1 "") "" =
  Some (Reach [Conn (InNs "blue") Stream (SockOpts 1 "") (ip4 1) (Text "192.0.2.7:853")] None).
Proof. vm_compute. reflexivity. Qed.
Example C90_ex_proxy : demo_reach (demo "udp" "dns.example:5353" "" "" "192.0.2.1" "" "" "" 0 "192.0.2.7:1080") "" =
  Some (Reach [Conn Here Stream no_opts (ip4 1) (Text "192.0.2.7:1080"); Conn Here Dgram no_opts (ip4 1) (Text "192.0.2.7:4000")] (Some ("dns.example:5353", "u", "p"))).
Proof. vm_compute. reflexivity. Qed.
Example C90_ex_doh : demo_reach (demo "doh" "https://dns.example/q" "tcp" "192.0.2.7" "" "" "" "" 0 "") "dns.example:443" =
  Some (Reach [Conn Here Stream no_opts [] (Text "192.0.2.7:443")] None) /\
  demo_reach (demo "doh" "https://dns.example/q" "quic" "2001:db8::1" "" "192.0.2.7" "2001:db8::7" "" 0 "") "dns.example:443" =
  Some (Reach [Conn Here Dgram no_opts (ip6 7) (Ip (ip6 1) 443)] None).
Proof. split; vm_compute; reflexivity. Qed.
Example C90_ex_made : map (fun p => match made demo_w (demo p "dns.example" "" "" "" "" "" "" 0 "") with None => None | Some c => Some (query_timeout _ _ c, udp_size _ _ c) end) ["tcp"; "udp"; "dot"; "dtls"; "doq"; "doh"; "odoh"; "dnscrypt"] =
  [Some (5000000000%Z, 1232%N); Some (5000000000%Z, 1232%N); Some (5000000000%Z, 0%N); Some (5000000000%Z, 1232%N); Some (5000000000%Z, 0%N); Some (5000000000%Z, 0%N); Some (5000000000%Z, 0%N); None].
Proof. vm_compute. reflexivity. Qed.
Example C90_ex_tls : match made demo_w (demo "doq" "dns.example" "" "192.0.2.7" "" "" "" "" 0 "") with None => None | Some c => tls_of _ _ c end =
  Some (Tls_model.Conf string string false None (Some ["ca"]) (Some "k.pem") "dns.example" 771).
Proof. vm_compute. reflexivity. Qed.
