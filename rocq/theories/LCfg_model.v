(** Listeners as the configuration asks for them: cmd/routedns/main.go:283-464 and the constructors of the listeners. How their sockets are
    asked for is LSock_model.v, what they do with requests Listener_model.v and Odoh_model.v, their restarts Netns_model.v. Quantified: the
    surroundings ([world]) and the libraries ([lib]). Not modelled: log messages, metrics, and that a map has no order: each listener is
    made on its own and the first error ends the start. *)
From Verif Require Import Base Bytes Dns Net Cidr_model Router_model Addr_model RunNs_model XDial_model LSock_model Listener_model.
From Verif Require Tls_model Odoh_model.
Local Open Scope string_scope.
Local Open Scope bool_scope.

(** cmd/routedns/config.go:23-43 listener, 46-48 dohFrontend *)
Record settings := Settings {
  l_address : string; l_protocol : string; l_ipv : Z; l_transport : string; l_resolver : string;
  l_ca : string; l_key : string; l_crt : string; l_mutual : bool; l_notls : bool; l_allowed : list string;
  l_seed : string; l_mode : string; l_doh : bool; l_netns : string; l_xsocket : string; l_mark : N; l_bindif : string; l_proxy : string }.

(** The surroundings: resolvers, groups and routers by name, netip.ParseAddr, url.Parse, net.ParseIP ([] is nil), net.ResolveUDPAddr, files
    with certificates, hex.DecodeString, odoh.CreateKeyPairFromSeed *)
Record world (R CA Cert Key : Type) := World {
  w_resolver : string -> option R; w_addr : string -> option bytes; w_url : string -> option url; w_ip : string -> bytes;
  w_udp : string -> option (bytes * Z); w_pem : string -> option (list CA); w_load : string -> string -> option Cert;
  w_hex : string -> option bytes; w_pair : bytes -> option Key }.
Arguments World {R CA Cert Key}. Arguments w_resolver {R CA Cert Key}. Arguments w_addr {R CA Cert Key}. Arguments w_url {R CA Cert Key}.
Arguments w_ip {R CA Cert Key}. Arguments w_udp {R CA Cert Key}. Arguments w_pem {R CA Cert Key}. Arguments w_load {R CA Cert Key}.
Arguments w_hex {R CA Cert Key}. Arguments w_pair {R CA Cert Key}.

(** dnslistener.go:22-30 ListenOptions *)
Record lopts := LOpts { o_allowed : list ipnet; o_ns : option netns; o_sock : sockopts }.

Section L.
Variables R CA Cert Key : Type.
Variable w : world R CA Cert Key.
Notation conf := (Tls_model.conf CA Cert).

(** The listeners with what their constructors keep; the name is kept by all of them *)
Inductive listener :=
| DNSListener (network addr : string) (o : lopts) (r : R)                       (* dnslistener.go:33-44 *)
| AdminListener (addr : string) (o : lopts) (tls : conf) (transport : string)   (* adminlistener.go:50-69 *)
| DoTListener (network addr : string) (o : lopts) (tls : conf) (r : R)          (* dotlistener.go:27-47 *)
| DTLSListener (addr : string) (o : lopts) (tls : conf) (r : R)                 (* dtlslistener.go:32-41 *)
| DoHListener (addr : string) (o : lopts) (tls : option conf) (transport : string) (proxy : option ipnet) (notls : bool) (r : R)   (* dohlistener.go:93-117 *)
| QUICListener (addr : string) (o : lopts) (tls : conf) (r : R)                 (* doqlistener.go:61-79 *)
| ODoHListener (addr : string) (o : lopts) (tls : conf) (mode : string) (doh : bool) (key : Key) (r : R).   (* odohlistener.go:56-102 *)

(** adminlistener.go:51-58, dohlistener.go:94-101 *)
Definition transport (t : string) : option string :=
  if String.eqb t "tcp" || String.eqb t "" then Some "tcp" else if String.eqb t "quic" then Some "quic" else None.
(** adminlistener.go:50-69 NewAdminListener *)
Definition newAdmin (addr : string) (o : lopts) (tls : conf) (t : string) : option listener := option_map (AdminListener addr o tls) (transport t).
(** dohlistener.go:93-117 NewDoHListener *)
Definition newDoH (addr : string) (o : lopts) (tls : option conf) (t : string) (proxy : option ipnet) (notls : bool) (r : R) : option listener :=
  option_map (fun t => DoHListener addr o tls t proxy notls r) (transport t).
(** odohlistener.go:277-292 getKeyPair. [rnd] is what crypto/rand gives, None on an error. *)
Definition getKeyPair (seed : string) (rnd : option bytes) : option Key :=
  match (if negb (String.eqb seed "") then w_hex w seed else rnd) with None => None | Some b => w_pair w b end.
(** odohlistener.go:56-102 NewODoHListener. The DoH listener inside has no transport and so is not refused; Odoh_model.handlers has the paths. *)
Definition newODoH (addr : string) (o : lopts) (tls : conf) (mode : string) (doh : bool) (seed : string) (rnd : option bytes) (r : R) : option listener :=
  option_map (fun k => ODoHListener addr o tls mode doh k r) (getKeyPair seed rnd).

(** cmd/routedns/main.go:283-288 pendingListener. [p_build] takes the random octets of the time it is called. *)
Record pending := Pending { p_id : string; p_ns : string; p_build : option bytes -> option listener; p_ln : option listener }.

(** net.ParseCIDR of trusted-proxy, main.go:378-383 *)
Definition proxy_net (s : string) : option (option ipnet) := parse_net_opt (w_addr w) s.
Definition server_conf (l : settings) : option conf := Tls_model.TLSServerConfig CA Cert (w_pem w) (w_load w) (l_ca l) (l_crt l) (l_key l) (l_mutual l).
Definition dtls_conf (l : settings) : option conf := Tls_model.DTLSServerConfig CA Cert (w_pem w) (w_load w) (l_ca l) (l_crt l) (l_key l) (l_mutual l).
Definition awd (s port : string) : string := AddressWithDefault (w_url w) s port.

(** main.go:314-421 the function that makes the listener; None is an error before there is one. All protocols but admin have a resolver by
    lines 291-295. *)
Definition build (l : settings) (o : lopts) (resolver : option R) : option (option bytes -> option listener) :=
  let withR (k : R -> option (option bytes -> option listener)) := match resolver with Some r => k r | None => None end in
  if String.eqb (l_protocol l) "tcp" then
    withR (fun r => Some (fun _ => Some (DNSListener (networkForIPVersion "tcp" (Z.to_N (l_ipv l))) (awd (l_address l) "53") o r)))
  else if String.eqb (l_protocol l) "udp" then
    withR (fun r => Some (fun _ => Some (DNSListener (networkForIPVersion "udp" (Z.to_N (l_ipv l))) (awd (l_address l) "53") o r)))
  else if String.eqb (l_protocol l) "admin" then
    match server_conf l with None => None | Some c => Some (fun _ => newAdmin (l_address l) o c (l_transport l)) end
  else if String.eqb (l_protocol l) "dot" then withR (fun r =>
    match server_conf l with None => None
    | Some c => Some (fun _ => Some (DoTListener (networkForIPVersion "tcp" (Z.to_N (l_ipv l))) (awd (l_address l) "853") o c r)) end)
  else if String.eqb (l_protocol l) "dtls" then withR (fun r =>
    match dtls_conf l with None => None | Some c => Some (fun _ => Some (DTLSListener (awd (l_address l) "853") o c r)) end)
  else if String.eqb (l_protocol l) "doh" then withR (fun r =>
    let addr := if String.eqb (l_transport l) "quic" then awd (l_address l) "1443" else awd (l_address l) "443" in
    match (if l_notls l then if String.eqb (l_transport l) "quic" then None else Some None else option_map Some (server_conf l)) with
    | None => None
    | Some c => match proxy_net (l_proxy l) with None => None | Some n => Some (fun _ => newDoH addr o c (l_transport l) n (l_notls l) r) end
    end)
  else if String.eqb (l_protocol l) "doq" then withR (fun r =>
    match server_conf l with None => None | Some c => Some (fun _ => Some (QUICListener (awd (l_address l) "8853") o c r)) end)
  else if String.eqb (l_protocol l) "odoh" then withR (fun r =>
    match server_conf l with None => None
    | Some c => Some (fun rnd => newODoH (awd (l_address l) "443") o c (l_mode l) (l_doh l) (l_seed l) rnd r) end)
  else None.

(** main.go:290-441 one turn of the loop over the listeners; None ends the start with an error. [rnd] are the random octets of the call
    in line 436. *)
Definition instantiateListener (id : string) (l : settings) (rnd : option bytes) : option pending :=
  let resolver := w_resolver w (l_resolver l) in
  if (match resolver with None => true | _ => false end) && negb (String.eqb (l_protocol l) "admin") then None else
  match parseCIDRList (w_addr w) (l_allowed l) with
  | None => None
  | Some allowed =>
      if negb (Z.eqb (l_ipv l) 4) && negb (Z.eqb (l_ipv l) 6) && negb (Z.eqb (l_ipv l) 0) then None else
      match buildNetNS (l_netns l) (l_xsocket l) with
      | None => None
      | Some ns =>
          match build l (LOpts allowed ns (SockOpts (l_mark l) (l_bindif l))) resolver with
          | None => None
          | Some b =>
              (* filepath.IsAbs *)
              let nsName := if prefix "/" (l_netns l) then "" else l_netns l in
              if String.eqb nsName "" then match b rnd with None => None | Some ln => Some (Pending id nsName b (Some ln)) end
              else Some (Pending id nsName b None)
          end
      end
  end.

(** The socket asked for by Start: dnslistener.go:47-53, adminlistener.go:72-81, dotlistener.go:50-64, dtlslistener.go:44-76,
    dohlistener.go:119-126, doqlistener.go:82-91, odohlistener.go:104-106 *)
Definition Start (ln : listener) : option sock :=
  match ln with
  | DNSListener network a o _ => dns_start network a (o_ns o) (o_sock o)
  | AdminListener a o _ t => if String.eqb t "quic" then quic_start (w_udp w) a (o_ns o) (o_sock o) else http_start a (o_ns o) (o_sock o)
  | DoTListener network a o _ _ => dot_start network a (o_ns o) (o_sock o)
  | DTLSListener a o _ _ => dtls_start (w_ip w) a (o_ns o)
  | DoHListener a o _ t _ _ _ => if String.eqb t "quic" then quic_start (w_udp w) a (o_ns o) (o_sock o) else http_start a (o_ns o) (o_sock o)
  | QUICListener a o _ _ => quic_start (w_udp w) a (o_ns o) (o_sock o)
  | ODoHListener a o _ _ _ _ _ => http_start a (o_ns o) (o_sock o)
  end.
(** The TLS configuration of the server on that socket; None is plain HTTP (dohlistener.go:143-148) or plain DNS *)
Definition tls_of (ln : listener) : option conf :=
  match ln with
  | DNSListener _ _ _ _ => None
  | AdminListener _ _ c _ | DoTListener _ _ _ c _ | DTLSListener _ _ c _ | QUICListener _ _ c _ | ODoHListener _ _ c _ _ _ _ => Some c
  | DoHListener _ _ c _ _ notls _ => if notls then None else c
  end.

(** ** Requests *)
(** A message from a client of plain DNS, DoT or DTLS with the name of the server asked for in TLS; an HTTP request with the parameters
    targethost and targetpath; a connection of DoQ *)
Inductive arrival := AMsg (src : bytes) (tls : string) (q : msg) | AHttp (r : httpreq) (host path : string) | AConn (src : bytes) (tls : string) (streams : list (handshake * bytes)).
(** What comes of it: a run of a handler, one for each stream, requests to another target, the ODoH configuration, metrics, status 404, or
    nothing as the listener does not speak the protocol *)
Inductive result := Ran (r : run) | Streams (l : list run) | Relayed (r : list Odoh_model.fwd * Odoh_model.pout) | Config (k : Key) | Metrics | NotFound | Other.

(** The libraries: resolvers, sizes, truncation and encodings of messages, base64, net.SplitHostPort, net.ParseIP, ODoH encryption (of a
    response: for the query it belongs to), the HTTP client of the proxy *)
Record lib := Lib {
  b_ask : R -> msg -> client -> Dns.result; b_size : msg -> N; b_optlen : edns0 -> N; b_truncate : N -> msg -> msg;
  b_unpack : bytes -> option msg; b_pack : msg -> option bytes; b_base64 : string -> option bytes; b_host : string -> string;
  b_decrypt : Key -> bytes -> option bytes; b_encrypt : Key -> bytes -> bytes -> option bytes; b_do : Odoh_model.fwd -> option Odoh_model.tresp }.
Variable b : lib.

(** The handlers the constructors register: dnslistener.go:40, dotlistener.go:43, dtlslistener.go:37, dohlistener.go:111-115,
    adminlistener.go:67, odohlistener.go:77-94. http.ServeMux sends all paths to a handler of "/", else those equal to the pattern. *)
Definition serve (id : string) (ln : listener) (x : arrival) : result :=
  match ln, x with
  | DNSListener network _ o r, AMsg src tls q => Ran (listenHandler (b_ask b r) (b_size b) (b_optlen b) (b_truncate b) id network (o_allowed o) src tls q)
  | DoTListener _ _ o _ r, AMsg src tls q => Ran (listenHandler (b_ask b r) (b_size b) (b_optlen b) (b_truncate b) id "dot" (o_allowed o) src tls q)
  | DTLSListener _ o _ r, AMsg src tls q => Ran (listenHandler (b_ask b r) (b_size b) (b_optlen b) (b_truncate b) id "dtls" (o_allowed o) src tls q)
  | DoHListener _ o _ _ proxy _ r, AHttp h _ _ =>
      Ran (dohHandler (b_ask b r) (b_size b) (b_optlen b) (b_unpack b) (b_pack b) (b_base64 b) (b_host b) (w_ip w) (DohOpt id (o_allowed o) proxy) h)
  | QUICListener _ o _ r, AConn src tls streams => Streams (handleConnection (b_ask b r) (b_unpack b) (b_pack b) id (o_allowed o) src tls streams)
  | AdminListener _ _ _ _, AHttp h _ _ => if String.eqb (h_path h) "/routedns/vars" then Metrics else NotFound
  | ODoHListener _ o _ mode doh k r, AHttp h host path =>
      match Odoh_model.route (Odoh_model.handlers mode) (h_path h) with
      | None => NotFound
      | Some Odoh_model.HConfig => Config k
      | Some Odoh_model.HQuery =>
          Ran (ODoHqueryHandler (b_ask b r) (b_size b) (b_optlen b) (b_unpack b) (b_pack b) (b_base64 b) (b_host b) (w_ip w)
                 (b_decrypt b k) (b_encrypt b k (h_body h)) id doh (o_allowed o) h)
      | Some Odoh_model.HProxy =>
          Relayed (Odoh_model.ODoHproxyHandler (b_do b) (o_allowed o)
                     (Odoh_model.PReq (w_ip w (b_host b (h_remote h))) (h_method h) (h_ctype h) host path (h_body h) (h_broken h)))
      end
  | _, _ => Other
  end.
End L.
