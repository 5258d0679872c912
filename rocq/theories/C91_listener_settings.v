(** C91: listeners do what their settings say. *)
From Verif Require Import Base Bytes Dns Net Cidr_spec Net_spec Modifiers_spec Router_model Addr_model Addr_spec XDial_model XDial_spec LSock_model LSock_spec
  Tls_spec Listener_model Listener_spec.
From Verif Require Tls_model Odoh_model Odoh_spec.
From Verif Require Import LCfg_model LCfg_spec LCfg_proofs LCfg_proofs2 LCfg_proofs3 LCfg_proofs4 LCfg_demo Port_spec Port_proofs2.
Local Open Scope string_scope.

(** The start goes on exactly if the settings are acceptable and, unless a namespace is awaited, the listener can be made. *)
Theorem C91_starts R CA Cert Key (w : world R CA Cert Key) id l rnd : parse_ok (w_addr w) ->
  (exists p, started w id l rnd p) <-> acceptable w l /\ (~ named l -> makeable w l rnd).
Proof. exact (starts w id l rnd). Qed.
Print Assumptions C91_starts.

(** A listener in a namespace given by name is made whenever the namespace appears, and each time this succeeds if it can be made;
    any other is made at the start. *)
Theorem C91_when R CA Cert Key (w : world R CA Cert Key) id l rnd p : started w id l rnd p -> p_id R CA Cert Key p = id /\
  (named l -> p_ns R CA Cert Key p = l_netns l /\ p_ln R CA Cert Key p = None) /\
  (~ named l -> p_ns R CA Cert Key p = "" /\ exists ln, p_ln R CA Cert Key p = Some ln /\ p_build R CA Cert Key p rnd = Some ln) /\
  forall rnd', (exists ln, p_build R CA Cert Key p rnd' = Some ln) <-> makeable w l rnd'.
Proof. exact (pended w id l rnd p). Qed.
Print Assumptions C91_when.

(** *** Sockets, as far as C72 has them as asked for *)
Theorem C91_socket_plain R CA Cert Key (w : world R CA Cert Key) id l ln a : made w id l ln -> listens l a ->
  (is l ["tcp"] -> exists s, Start R CA Cert Key w ln = Some s /\ plain_sock (asked l a) Stream s) /\
  (is l ["udp"] -> exists s, Start R CA Cert Key w ln = Some s /\ plain_sock (asked l a) Dgram s).
Proof. exact (socket_plain w id l ln a). Qed.
Print Assumptions C91_socket_plain.

Theorem C91_socket_dot R CA Cert Key (w : world R CA Cert Key) id l ln a : made w id l ln -> listens l a -> is l ["dot"] ->
  exists s, Start R CA Cert Key w ln = Some s /\
  at_place (asked l a) (k_place s) /\ k_type s = Stream /\ k_addr s = Text a /\ same_opts (k_opts s) (c_opts (asked l a)) /\
  (one_version (k_net s) (Z.to_N (l_ipv l)) <-> l_ipv l = 0%Z \/ (l_netns l = "" /\ l_xsocket l = "" /\ l_mark l = 0%N /\ l_bindif l = "")).
Proof. exact (socket_dot w id l ln a). Qed.
Print Assumptions C91_socket_dot.

Theorem C91_socket_http R CA Cert Key (w : world R CA Cert Key) id l ln a : made w id l ln -> listens l a ->
  is l ["odoh"] \/ (is l ["doh"; "admin"] /\ l_transport l <> "quic") -> exists s, Start R CA Cert Key w ln = Some s /\ http_sock (asked l a) Stream (Text a) s.
Proof. exact (socket_http w id l ln a). Qed.
Print Assumptions C91_socket_http.

Theorem C91_socket_quic R CA Cert Key (w : world R CA Cert Key) id l ln a : made w id l ln -> listens l a ->
  is l ["doq"] \/ (is l ["doh"; "admin"] /\ l_transport l = "quic") ->
  match w_udp w a with
  | None => Start R CA Cert Key w ln = None
  | Some (ip, port) => exists s, Start R CA Cert Key w ln = Some s /\ http_sock (asked l a) Dgram (Udp ip port) s
  end.
Proof. exact (socket_quic w id l ln a). Qed.
Print Assumptions C91_socket_quic.

Theorem C91_socket_dtls R CA Cert Key (w : world R CA Cert Key) id l ln a h po : made w id l ln -> listens l a -> is l ["dtls"] -> hostport a h po ->
  ((forall n, ~ whole po n) -> Start R CA Cert Key w ln = None) /\
  (forall n, whole po n -> (l_xsocket l <> "" -> Start R CA Cert Key w ln = None) /\
      (l_xsocket l = "" -> exists s, Start R CA Cert Key w ln = Some s /\ at_place (asked l a) (k_place s) /\ k_type s = Dgram /\
         one_version (k_net s) 0 /\ k_addr s = Udp (w_ip w h) n /\ options (k_opts s) = [])).
Proof. exact (socket_dtls_whole R CA Cert Key w id l ln a h po). Qed.
Print Assumptions C91_socket_dtls.

(** *** TLS: the files named are those used; no TLS only for plain DNS and for DoH that goes without. *)
Theorem C91_tls R CA Cert Key (w : world R CA Cert Key) id l ln : made w id l ln ->
  (secured l -> exists p x, files w l p x /\
     tls_of R CA Cert Key ln = Some (Tls_model.Conf CA Cert (l_mutual l) p None x "" (if String.eqb (l_protocol l) "dtls" then 0 else 771)%N)) /\
  (~ secured l -> tls_of R CA Cert Key ln = None).
Proof. exact (tls_ok w id l ln). Qed.
Print Assumptions C91_tls.

(** *** Requests *)
(** Plain DNS, DoT and DTLS: clients in allowed-net get the answer of the resolver named, others REFUSED without a resolver being asked. *)
Theorem C91_messages R CA Cert Key (w : world R CA Cert Key) (b : lib R Key) : sane w b ->
  forall id l ln src tls q, made w id l ln -> is l ["tcp"; "udp"; "dot"; "dtls"] -> src = [] \/ ip_ok src -> opt_wf q ->
  exists r run, w_resolver w (l_resolver l) = Some r /\ serve R CA Cert Key w b id ln (AMsg src tls q) = Ran Key run /\
  let ci := Client src "" tls id in
  (m_question q = [] -> run = ([], Silent)) /\
  (m_question q <> [] -> ~ served w l src -> exists a m, error_reply q 5 a /\ gets b l q a m /\ run = ([], Written m)) /\
  (m_question q <> [] -> served w l src -> b_ask R Key b r q ci = Drop -> run = ([Call q ci], Closed)) /\
  (m_question q <> [] -> served w l src -> b_ask R Key b r q ci <> Drop -> (forall a, b_ask R Key b r q ci = Ans a -> paddable a) ->
     exists a m, outcome q (b_ask R Key b r q ci) a /\ gets b l q a m /\ run = ([Call q ci], Written m)).
Proof. exact (msg_ok w b). Qed.
Print Assumptions C91_messages.

(** DoH: the same, for the address that counts by trusted-proxy *)
Theorem C91_doh R CA Cert Key (w : world R CA Cert Key) (b : lib R Key) : sane w b ->
  forall id l ln h host path x, made w id l ln -> is l ["doh"] -> client_address w b l h x ->
  exists r out, w_resolver w (l_resolver l) = Some r /\ serve R CA Cert Key w b id ln (AHttp h host path) = Ran Key out /\ http_reply w b l id r h x out.
Proof. exact (doh_ok w b). Qed.
Print Assumptions C91_doh.

(** DoQ: no stream of a client that is not in allowed-net is served *)
Theorem C91_doq R CA Cert Key (w : world R CA Cert Key) (b : lib R Key) : sane w b ->
  forall id l ln src tls streams, made w id l ln -> is l ["doq"] -> src = [] \/ ip_ok src ->
  exists r outs, w_resolver w (l_resolver l) = Some r /\ serve R CA Cert Key w b id ln (AConn src tls streams) = Streams Key outs /\
  (~ served w l src -> outs = []) /\ (served w l src -> Forall2 (stream_reply b r (Client src "" tls id)) streams outs).
Proof. exact (doq_ok w b). Qed.
Print Assumptions C91_doq.

(** ODoH: the target with the key of the seed, and DoH there if allow-doh says so (for the peer's address), … *)
Theorem C91_odoh_target R CA Cert Key (w : world R CA Cert Key) (b : lib R Key) : sane w b ->
  forall id l ln h host path, made w id l ln -> is l ["odoh"] -> In (l_mode l) [""; "target"; "dual"] -> h_path h = "/dns-query" ->
  exists r k rnd out, w_resolver w (l_resolver l) = Some r /\ has_key w l rnd k /\ serve R CA Cert Key w b id ln (AHttp h host path) = Ran Key out /\
  (oblivious h -> target_reply b id r k h out) /\
  (h_method h <> "POST" \/ h_ctype h = "application/dns-message" ->
     (l_doh l = false -> out = ([], Status 405)) /\ (l_doh l = true -> http_reply w b l id r h (peer w b h) out)) /\
  (h_method h = "POST" -> ~ In (h_ctype h) ["application/oblivious-dns-message"; "application/dns-message"] -> out = ([], Status 405)).
Proof. exact (odoh_target w b). Qed.
Print Assumptions C91_odoh_target.

(** … the configuration with the key that queries to the same listener are decrypted with, … *)
Theorem C91_odoh_config R CA Cert Key (w : world R CA Cert Key) (b : lib R Key) :
  forall id l ln h host path, made w id l ln -> is l ["odoh"] -> In (l_mode l) [""; "target"; "dual"] -> h_path h = "/.well-known/odohconfigs" ->
  exists k rnd, has_key w l rnd k /\ serve R CA Cert Key w b id ln (AHttp h host path) = Config Key k /\
  forall h' host' path' out, h_path h' = "/dns-query" -> oblivious h' -> serve R CA Cert Key w b id ln (AHttp h' host' path') = Ran Key out ->
    exists r, w_resolver w (l_resolver l) = Some r /\ target_reply b id r k h' out.
Proof. exact (odoh_config w b). Qed.
Print Assumptions C91_odoh_config.

(** … the proxy, … *)
Theorem C91_odoh_proxy R CA Cert Key (w : world R CA Cert Key) (b : lib R Key) :
  forall id l ln h host path, made w id l ln -> is l ["odoh"] -> In (l_mode l) ["proxy"; "dual"] -> h_path h = "/proxy" ->
  exists fs out, serve R CA Cert Key w b id ln (AHttp h host path) = Relayed Key (fs, out) /\
  (Odoh_spec.acceptable (proxied w b h host path) -> exists f, Odoh_spec.sent (proxied w b h host path) f /\ fs = [f] /\ out = Odoh_model.relay (b_do R Key b f)) /\
  (~ Odoh_spec.acceptable (proxied w b h host path) -> fs = [] /\ exists n, out = Odoh_model.PStatus n /\ (n = 400 \/ n = 405)%N).
Proof. exact (odoh_proxy w b). Qed.
Print Assumptions C91_odoh_proxy.

(** … and nothing else. *)
Theorem C91_odoh_else R CA Cert Key (w : world R CA Cert Key) (b : lib R Key) :
  forall id l ln h host path, made w id l ln -> is l ["odoh"] -> ~ (h_path h = "/proxy" /\ In (l_mode l) ["proxy"; "dual"]) ->
  ~ (In (h_path h) ["/dns-query"; "/.well-known/odohconfigs"] /\ In (l_mode l) [""; "target"; "dual"]) ->
  serve R CA Cert Key w b id ln (AHttp h host path) = NotFound Key.
Proof. exact (odoh_else w b). Qed.
Print Assumptions C91_odoh_else.

(** With key-seed the key is always the same; without, it is that of the random octets of each time the listener is made. *)
Theorem C91_key R CA Cert Key (w : world R CA Cert Key) l :
  (l_seed l <> "" -> forall rnd rnd' k k', has_key w l rnd k -> has_key w l rnd' k' -> k = k') /\
  (l_seed l = "" -> forall rnd k, has_key w l rnd k <-> exists o, rnd = Some o /\ w_pair w o = Some k).
Proof. exact (conj (fun E rnd rnd' k k' => key_seed w l rnd rnd' k k' E) (fun E rnd k => key_rand w l rnd k E)). Qed.
Print Assumptions C91_key.

(** The admin service: metrics and nothing else *)
Theorem C91_admin R CA Cert Key (w : world R CA Cert Key) (b : lib R Key) :
  forall id l ln h host path, made w id l ln -> is l ["admin"] ->
  (h_path h = "/routedns/vars" -> serve R CA Cert Key w b id ln (AHttp h host path) = Metrics Key) /\
  (h_path h <> "/routedns/vars" -> serve R CA Cert Key w b id ln (AHttp h host path) = NotFound Key).
Proof. exact (admin_ok w b). Qed.
Print Assumptions C91_admin.

(** *** What does not hold *)
(** "Replies over UDP are no larger than the client accepts": with an ip-version the answer goes out as it is. *)
Theorem C91_udp_refuted R CA Cert Key (w : world R CA Cert Key) (b : lib R Key) : sane w b ->
  forall id l ln src tls q r a, made w id l ln -> is l ["udp"] -> l_ipv l <> 0%Z -> src = [] \/ ip_ok src -> opt_wf q -> m_question q <> [] ->
  served w l src -> w_resolver w (l_resolver l) = Some r -> b_ask R Key b r q (Client src "" tls id) = Ans a -> no_edns0 a -> paddable a ->
  serve R CA Cert Key w b id ln (AMsg src tls q) = Ran Key ([Call q (Client src "" tls id)], Written a).
Proof. exact (udp_whole w b). Qed.
Print Assumptions C91_udp_refuted.

Example C91_ex_udp : exists ln, made X_w "u" (X_l "10.0.0.1" "udp" 4 "" "r2" "" "" "" "") ln /\
  b_truncate N bytes X_b 512 (X_a 2) <> X_a 2 /\
  serve _ _ _ _ X_w X_b "u" ln (AMsg [10;1;1;1]%N "" X_q) = Ran bytes ([Call X_q (Client [10;1;1;1]%N "" "" "u")], Written (X_a 2)).
Proof. exact X_udp. Qed.

(** "Only clients in allowed-net are served": not so for the admin service and the ODoH target (for the proxy: C66). *)
Theorem C91_admin_refuted : exists l ln h, made X_w "a" l ln /\ is l ["admin"] /\ ~ served X_w l (peer X_w X_b h) /\
  serve _ _ _ _ X_w X_b "a" ln (AHttp h "" "") = Metrics bytes.
Proof. exact X_admin. Qed.
Print Assumptions C91_admin_refuted.

Theorem C91_target_refuted : exists l ln h, made X_w "o" l ln /\ is l ["odoh"] /\ ~ served X_w l (peer X_w X_b h) /\
  serve _ _ _ _ X_w X_b "o" ln (AHttp h "" "") = Ran bytes ([Call X_q (Client [] "" "dns.example" "o")], Body [99; 1]%N).
Proof. exact X_target. Qed.
Print Assumptions C91_target_refuted.

(** "Settings that make no sense end the start": an odoh-mode that does not exist does not, and neither does a transport that does not
    exist if the listener is in a namespace; it can never be made then. *)
Theorem C91_mode_refuted : exists l ln, made X_w "o" l ln /\ is l ["odoh"] /\ l_mode l = "Target" /\
  forall h host path, serve _ _ _ _ X_w X_b "o" ln (AHttp h host path) = NotFound bytes.
Proof. exact X_mode. Qed.
Print Assumptions C91_mode_refuted.

Theorem C91_namespace_refuted : exists l p, started X_w "d" l None p /\ (forall rnd, p_build _ _ _ _ p rnd = None) /\ forall rnd, ~ makeable X_w l rnd.
Proof. exact X_lazy. Qed.
Print Assumptions C91_namespace_refuted.

(** *** Examples *)
Example C91_ex_sane : sane X_w X_b.
Proof. exact X_sane. Qed.
Example C91_ex_eager : forall rnd p, ~ started X_w "d" (X_l "" "doh" 0 "QUIC" "r1" "" "" "" "") rnd p.
Proof. exact X_eager. Qed.
(** A client outside gets REFUSED, one inside the answer of the resolver named *)
Example C91_ex_messages : exists ln, made X_w "t" (X_l "" "dot" 6 "" "r1" "" "" "blue" "") ln /\
  Start _ _ _ _ X_w ln = Some (Sock (InNs "blue") Stream "tcp" (Text ":853") (SockOpts 0 "")) /\
  serve _ _ _ _ X_w X_b "t" ln (AMsg [10;1;1;1]%N "n" X_q) = Ran bytes ([Call X_q (Client [10;1;1;1]%N "" "n" "t")], Written (X_a 1)) /\
  serve _ _ _ _ X_w X_b "t" ln (AMsg [192;0;2;1]%N "n" X_q) = Ran bytes ([], Written (set_rcode empty_msg X_q 5)).
Proof. eexists. split; [exists None; eexists; exists None; split; reflexivity|]. split; [reflexivity|]. split; reflexivity. Qed.
Example C91_ex_listens : listens (X_l "10.0.0.1" "doh" 0 "quic" "r1" "" "" "" "") "10.0.0.1:1443".
Proof.
  right. split; [apply Addr_proofs.without_iff; reflexivity|]. split; [apply Addr_proofs.without_iff; reflexivity|].
  left. exists "1443". split; [|split; [apply Addr_proofs.without_iff; reflexivity|reflexivity]]. do 5 right. split; [left; reflexivity|split; reflexivity].
Qed.
(** The proxy at 10.1.1.1 forwards for a client outside *)
Definition C91_get (xff : list string) : httpreq := HttpReq "GET" ["x"] "" [] false (Some (true, "n")) "10.1.1.1" xff "/q".
Example C91_ex_doh : exists ln, made X_w "d" (X_l "" "doh" 0 "" "r2" "" "" "" "10.0.0.0/8") ln /\
  serve _ _ _ _ X_w X_b "d" ln (AHttp (C91_get []) "" "") = Ran bytes ([Call X_q (Client [10;1;1;1]%N "/q" "n" "d")], Body [1]%N) /\
  serve _ _ _ _ X_w X_b "d" ln (AHttp (C91_get ["192.0.2.1"]) "" "") = Ran bytes ([], Body [0]%N).
Proof. eexists. split; [exists None; eexists; exists None; split; reflexivity|]. split; vm_compute; reflexivity. Qed.
(** Two keys of a listener without a seed *)
Example C91_ex_key : exists p, started X_w "o" (X_l "" "odoh" 0 "" "r1" "" "dual" "blue" "") None p /\
  (exists ln, p_build _ _ _ _ p (Some [1]%N) = Some ln /\ serve _ _ _ _ X_w X_b "o" ln (AHttp (X_h "/.well-known/odohconfigs" "" "" []) "" "") = Config bytes [1]%N) /\
  (exists ln, p_build _ _ _ _ p (Some [2]%N) = Some ln /\ serve _ _ _ _ X_w X_b "o" ln (AHttp (X_h "/.well-known/odohconfigs" "" "" []) "" "") = Config bytes [2]%N).
Proof. eexists. split; [reflexivity|]. split; eexists; (split; [reflexivity|reflexivity]). Qed.
Example C91_ex_doq : exists ln, made X_w "q" (X_l "10.0.0.1" "doq" 0 "" "r2" "" "" "" "") ln /\
  Start _ _ _ _ X_w ln = Some (Sock Here Dgram "udp" (Udp [10;0;0;1]%N 8853) (SockOpts 0 "")) /\
  tls_of _ _ _ _ ln = Some (Tls_model.Conf string string true (Some ["ca"]) None (Some "server") "" 771) /\
  serve _ _ _ _ X_w X_b "q" ln (AConn [10;1;1;1]%N "n" [(HsDone, [0;1;7]%N); (HsDone, [0;9]%N)]) =
    Streams bytes [([Call X_q (Client [10;1;1;1]%N "" "n" "q")], Body [0;1;1]%N); ([], Silent)] /\
  serve _ _ _ _ X_w X_b "q" ln (AConn [192;0;2;1]%N "n" [(HsDone, [0;1;7]%N)]) = Streams bytes [].
Proof. eexists. split; [exists None; eexists; exists None; split; reflexivity|]. repeat split; vm_compute; reflexivity. Qed.
Example C91_ex_proxy : exists ln, made X_w "p" (X_l "" "odoh" 0 "" "r2" "0a0b" "proxy" "" "") ln /\
  serve _ _ _ _ X_w X_b "p" ln (AHttp (X_h "/proxy" "192.0.2.1" "application/oblivious-dns-message" [1]%N) "dns.example" "/dns-query") =
    Relayed bytes ([Odoh_model.Fwd "https" "dns.example" "/dns-query" "application/oblivious-dns-message" [1]%N], Odoh_model.PStatus 500) /\
  serve _ _ _ _ X_w X_b "p" ln (AHttp (X_h "/dns-query" "10.1.1.1" "application/oblivious-dns-message" [1]%N) "" "") = NotFound bytes.
Proof. eexists. split; [exists None; eexists; exists None; split; reflexivity|]. split; vm_compute; reflexivity. Qed.
