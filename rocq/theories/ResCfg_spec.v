(** What the settings of a resolver are to mean: where its connections go, through what, and when it is refused. *)
From Verif Require Import Base Bytes Net Cidr_spec Net_spec Addr_model Addr_spec XDial_model LSock_model Hostname_spec Tls_spec ResCfg_model.
From Verif Require Client_model Tls_model.
Local Open Scope string_scope.

Section S.
Context {CA Cert : Type}.
Variable w : world CA Cert.
Definition made (r : settings) : option (client CA Cert) := instantiateResolver CA Cert w r.
Definition connection (c : client CA Cert) (address : string) : option reach := connect CA Cert w c address.

(** A text without brackets *)
Definition plain (s : string) : Prop := without "[" s /\ without "]" s.
(** The functions of the standard library: texts of addresses have no brackets and are read as addresses of the same family, and
    a lookup finds addresses *)
Record sane : Prop := Sane {
  sane_none : w_ip w "" = [];
  sane_ip : forall s, w_ip w s = [] \/ ip_ok (w_ip w s);
  sane_lookup : forall h ip, In ip (w_lookup w h) -> ip <> [] /\ ip_ok ip;
  sane_lookup4 : forall h ip, In ip (w_lookup4 w h) -> ip <> [] /\ ip_ok ip;
  sane_show : forall ip, ip <> [] -> ip_ok ip -> plain (w_show w ip) /\ w_ip w (w_show w ip) <> [] /\ (is_v4 (w_ip w (w_show w ip)) <-> is_v4 ip);
  sane_again : forall s, w_ip w s <> [] -> w_ip w (w_show w (w_ip w s)) = w_ip w s }.

(** netns and xsocket *)
Definition placed (r : settings) (p : place) : Prop :=
  (r_netns r = "" /\ r_xsocket r = "" /\ p = Here) \/ (r_netns r <> "" /\ r_xsocket r = "" /\ p = InNs (r_netns r)) \/
  (r_netns r = "" /\ r_xsocket r <> "" /\ p = XSock (r_xsocket r)).
(** fwmark and bind-if *)
Definition options (r : settings) : sockopts := SockOpts (r_mark r) (r_bindif r).
Definition proper (r : settings) (k : conn) : Prop := placed r (n_place k) /\ n_opts k = options r.
(** address: a host, or host and port *)
Definition server (r : settings) (default host port : string) : Prop :=
  without "/" (r_address r) /\ without "{" (r_address r) /\
  ((without ":" (r_address r) /\ plain (r_address r) /\ host = r_address r /\ port = default) \/ hostport (r_address r) host port).
Definition plain_dns (r : settings) : Prop := r_protocol r = "tcp" \/ r_protocol r = "udp".
(** bootstrap-address, which plain DNS does not have: the host t is contacted in place of h *)
Definition instead (r : settings) (h t : string) : Prop :=
  (r_boot r <> "" /\ ~ plain_dns r /\ t = r_boot r) \/ ((r_boot r = "" \/ plain_dns r) /\ t = h).
(** The host as it is, or its first address if it is a name that has one *)
Definition resolved (lookup : string -> list bytes) (t t' : string) : Prop :=
  ((w_ip w t <> [] \/ lookup t = []) /\ t' = t) \/ (w_ip w t = [] /\ exists ip l, lookup t = ip :: l /\ t' = w_show w ip).
(** The address contacted, if it is known *)
Definition stands (t : string) (o : option bytes) : Prop :=
  (w_ip w t <> [] /\ o = Some (w_ip w t)) \/ (w_ip w t = [] /\ exists ip l, w_lookup w t = ip :: l /\ o = Some ip) \/
  (w_ip w t = [] /\ w_lookup w t = [] /\ o = None).
(** local-address, local-address-v4, local-address-v6 *)
Definition local (r : settings) (o : option bytes) (got : bytes) : Prop :=
  local_for o (w_ip w (r_local r)) (w_ip w (r_local4 r)) (w_ip w (r_local6 r)) got.

(** One socket, to the host h or what stands in for it *)
Definition direct (r : settings) (type : socktype) (h p : string) (e : reach) : Prop :=
  exists t t' x o k, instead r h t /\ resolved (w_lookup w) t t' /\ hostport x t' p /\ stands t o /\
    e = Reach [k] None /\ proper r k /\ n_type k = type /\ n_peer k = Text x /\ local r o (n_local k).
(** The name or address that a proxy is asked for *)
Definition asked (r : settings) (t t' : string) : Prop :=
  (p_resolve r = false /\ t' = t) \/ (p_resolve r = true /\ resolved (w_lookup4 w) t t').
Definition literal (t : string) (o : option bytes) : Prop := (w_ip w t = [] /\ o = None) \/ (w_ip w t <> [] /\ o = Some (w_ip w t)).
(** One connection to the proxy, and for UDP a socket to the address it names; the proxy is asked for the host h or what stands in for it *)
Definition by_proxy (r : settings) (type : socktype) (h p : string) (e : reach) : Prop :=
  exists t t' x o k ks, instead r h t /\ asked r t t' /\ hostport x t' p /\ literal t' o /\
    e = Reach (k :: ks) (Some (x, p_user r, p_password r)) /\
    n_type k = Stream /\ n_peer k = Text (p_address r) /\
    (type = Stream -> ks = []) /\ (type = Dgram -> exists k', ks = [k'] /\ n_type k' = Dgram /\ n_peer k' = Text (w_relay w (p_address r))) /\
    Forall (fun k => proper r k /\ local r o (n_local k)) (k :: ks).
(** A name with addresses of both families *)
Definition both_families (address : string) : Prop :=
  exists h p, hostport address h p /\ w_ip w h = [] /\ (exists ip, In ip (w_lookup w h) /\ is_v4 ip) /\ (exists ip, In ip (w_lookup w h) /\ ~ is_v4 ip).
(** No fwmark or bind-if in a namespace with a proxy that is a name with addresses of both families *)
Definition stays (r : settings) : Prop := r_netns r = "" \/ options r = SockOpts 0 "" \/ ~ both_families (p_address r).
(** One socket, which sends to an address *)
Definition sends (r : settings) (ip : bytes) (port : Z) (got : bytes) (e : reach) : Prop :=
  exists k, e = Reach [k] None /\ proper r k /\ n_type k = Dgram /\ n_peer k = Ip ip port /\ n_local k = got.
(** The local address of QUIC: that of the family if both are set; else the only one set, the general one or any *)
Definition quic_local (r : settings) (ip got : bytes) : Prop :=
  let l := w_ip w (r_local r) in let l4 := w_ip w (r_local4 r) in let l6 := w_ip w (r_local6 r) in
  (l4 <> [] /\ l6 <> [] /\ ((is_v4 ip /\ got = l4) \/ (~ is_v4 ip /\ got = l6))) \/
  (l4 <> [] /\ l6 = [] /\ got = l4) \/ (l4 = [] /\ l6 <> [] /\ got = l6) \/
  (l4 = [] /\ l6 = [] /\ l <> [] /\ got = l) \/ (l4 = [] /\ l6 = [] /\ l = [] /\ got = [0; 0; 0; 0; 0; 0; 0; 0; 0; 0; 255; 255; 0; 0; 0; 0]%N).
(** The address of DTLS: the bootstrap address, or the first one of the host *)
Definition aimed (r : settings) (h : string) (ip : bytes) : Prop :=
  (r_boot r = "" /\ exists l, w_lookup w h = ip :: l) \/ (r_boot r <> "" /\ ip = w_ip w (r_boot r) /\ ip <> []).
(** QUIC: one socket, which sends to the address of the host h or of what stands in for it *)
Definition quic_route (r : settings) (h p : string) (c : client CA Cert) (a : string) : Prop :=
  exists t x, instead r h t /\ hostport x t p /\ (w_udp w x = None -> connection c a = None) /\
    forall ip port, w_udp w x = Some (ip, port) -> ip_ok ip -> exists e got, connection c a = Some e /\ sends r ip port got e /\ quic_local r ip got.
(** None of the settings that concern connections *)
Definition unset (r : settings) : Prop :=
  r_boot r = "" /\ w_ip w (r_local r) = [] /\ w_ip w (r_local4 r) = [] /\ w_ip w (r_local6 r) = [] /\
  r_netns r = "" /\ r_xsocket r = "" /\ options r = SockOpts 0 "".
(** net/http connects by itself *)
Definition by_itself (r : settings) (address : string) (e : reach) : Prop :=
  unset r /\ e = Reach [Conn Here Stream (SockOpts 0 "") [] (Text address)] None.

(** ** When a resolver is refused *)
Definition one_way (r : settings) : Prop := r_netns r = "" \/ r_xsocket r = "".
Definition good_server (h p : string) : Prop := port_ok p /\ (w_ip w h <> [] \/ host_ok h).
(** The files with certificates can be used *)
Definition files (r : settings) : Prop := (exists q, authorities (w_pem w) (r_ca r) q) /\ exists x, presents (w_load w) (r_crt r) (r_key r) x.
(** The options of DoH *)
Definition doh_options (r : settings) (early : bool) (url : string) : Prop :=
  (0 <= h_idle r)%Z /\ In (r_transport r) [""; "tcp"; "quic"] /\ In (h_method r) [""; "POST"; "GET"] /\
  (r_transport r = "quic" -> exists u, w_url w url = Some u) /\
  exists names, w_template w url = Some names /\
    (early = true -> r_transport r = "quic" /\ In "dns" names /\ h_method r <> "POST").
(** The URL of DoH: the address with port 443 if it has none *)
Definition completed (a url : string) : Prop :=
  exists e t, templated a e t /\
    ((without "/" e /\ ~ without ":" e /\ url = a) \/ (without "/" e /\ without ":" e /\ (plain e -> hostport url e "443")) \/
     (~ without "/" e /\ match w_url w e with
                        | None => url = a
                        | Some u => (u_port u <> "" -> url = u_string u ++ t) /\ (u_port u = "" -> url = u_with u (JoinHostPort (u_hostname u) "443") ++ t)
                        end)).
(** The URL that a resolver over HTTPS talks to: for ODoH the proxy, or the target if there is none *)
Definition talks_to (r : settings) (url : string) : Prop :=
  (r_protocol r = "doh" /\ completed (r_address r) url) \/
  (r_protocol r = "odoh" /\ ((r_address r <> "" /\ url = r_address r) \/ (r_address r = "" /\ url = o_target r))).
(** The TLS configuration: authorities, certificate, name and lowest version *)
Definition secured (r : settings) (name : string) (min : N) (c : client CA Cert) : Prop :=
  exists q x, authorities (w_pem w) (r_ca r) q /\ presents (w_load w) (r_crt r) (r_key r) x /\
    tls_of CA Cert c = Some (Tls_model.Conf CA Cert false None q x name min).
(** enable-0rtt, which ODoH does not have *)
Definition early (r : settings) : bool := if String.eqb (r_protocol r) "doh" then r_0rtt r else false.
(** POST by default, but GET for 0-RTT *)
Definition method (r : settings) (early : bool) (m : string) : Prop :=
  (h_method r <> "" /\ m = h_method r) \/ (h_method r = "" /\ m = if early then "GET" else "POST").

(** ** Durations *)
Definition short (n : Z) : Prop := (- 9223372036 <= n <= 9223372036)%Z.
(** n seconds, or d seconds by default, in nanoseconds *)
Definition lasting (n d t : Z) : Prop := ((n = 0 /\ t = d * 1000000000) \/ (n <> 0 /\ t = n * 1000000000))%Z.
End S.
