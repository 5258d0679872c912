(** Resolvers as resolver.go builds them, and the sockets through which they reach their server: cmd/routedns/resolver.go:12-185
    (instantiateResolver, socks5DialerFromConfig), with the constructors and the dial functions of dnsclient.go, dotclient.go,
    dtlsclient.go, dohclient.go, doqclient.go, odohclient.go and socks5.go. Not modelled: what is sent (Client_model.v, Pipeline_model.v), how
    a socket is made (XDial_model.v, RunNs_model.v), failures of the system while connecting, http.ProxyFromEnvironment. *)
From Verif Require Import Base Bytes Net Router_model Addr_model RunNs_model XDial_model LSock_model Hostname_model ListCfg_model.
From Verif Require Tls_model Client_model.
Local Open Scope string_scope.
Local Open Scope bool_scope.

(** cmd/routedns/config.go:50-88 resolver and doh *)
Record settings := Settings {
  r_address : string; r_protocol : string; r_transport : string; h_method : string; h_idle : Z;
  r_ca : string; r_key : string; r_crt : string; r_server : string; r_boot : string;
  r_local : string; r_local4 : string; r_local6 : string; r_size : N; r_timeout : Z;
  r_netns : string; r_xsocket : string; r_mark : N; r_bindif : string;
  p_address : string; p_user : string; p_password : string; p_resolve : bool;
  r_0rtt : bool; o_target : string; o_config : string }.

(** The surroundings: url.Parse, net.ParseIP ([] is nil), IP.String, net.LookupIP ([] also for an error), its form for IPv4 (socks5.go:128),
    net.ResolveUDPAddr, the names in a URL template, whether a UDP socket can be made, files with certificates, the address for UDP that
    a SOCKS5 proxy names *)
Record world (CA Cert : Type) := World {
  w_url : string -> option url; w_path : string -> string; w_ip : string -> bytes; w_show : bytes -> string;
  w_lookup : string -> list bytes; w_lookup4 : string -> list bytes; w_udp : string -> option (bytes * Z);
  w_template : string -> option (list string); w_bind : sock -> bool;
  w_pem : string -> option (list CA); w_load : string -> string -> option Cert; w_relay : string -> string }.
Arguments World {CA Cert}. Arguments w_url {CA Cert}. Arguments w_path {CA Cert}. Arguments w_ip {CA Cert}. Arguments w_show {CA Cert}.
Arguments w_lookup {CA Cert}. Arguments w_lookup4 {CA Cert}. Arguments w_udp {CA Cert}. Arguments w_template {CA Cert}.
Arguments w_bind {CA Cert}. Arguments w_pem {CA Cert}. Arguments w_load {CA Cert}. Arguments w_relay {CA Cert}.

(** A socket that is opened: where, TCP or UDP, options, address it is bound to ([] is none), and what it is connected to or sends to *)
Inductive peer := Text (a : string) | Ip (ip : bytes) (port : Z).
Record conn := Conn { n_place : place; n_type : socktype; n_opts : sockopts; n_local : bytes; n_peer : peer }.
(** The sockets that a connection opens, and what a SOCKS5 proxy is asked for and with which name and password *)
Record reach := Reach { e_conns : list conn; e_asked : option (string * string * string) }.

(** socks5.go:20-44 Socks5DialerOptions with the address of the proxy; timeouts in nanoseconds *)
Record socks := Socks {
  s_server : string; s_user : string; s_password : string; s_udpTimeout : Z; s_tcpTimeout : Z; s_dial : sopt; s_ns : option netns; s_opts : sockopts }.
(** dnsclient.go:100-110 GenericDNSClient *)
Record generic := Generic {
  g_dialer : option socks; g_net : string; g_local : bytes; g_local4 : bytes; g_local6 : bytes; g_timeout : Z; g_ns : option netns; g_opts : sockopts }.
(** dohclient.go:56-93 DoHClientOptions without method, transport and TLS *)
Record dohopt := DohOpt {
  t_boot : string; t_local : bytes; t_local4 : bytes; t_local6 : bytes; t_idle : Z; t_dialer : option socks; t_ns : option netns; t_opts : sockopts }.
(** One UDP socket for all connections, or one for each family *)
Inductive quic := Single (s : sock) | Dual (s4 s6 : sock).
(** The transport of a DoH client: idle timeout and options; MaxIdleTimeout (0: that of the library), sockets, options, whether DialEarly is used *)
Inductive transport := OverTcp (idle : Z) (o : dohopt) | OverQuic (idle : Z) (q : quic) (o : dohopt) (early : bool).

Section R.
Variables CA Cert : Type.
Variable w : world CA Cert.
Notation conf := (Tls_model.conf CA Cert).
Notation parseIP := (w_ip w).

(** ** Dialing *)
(** net.Dialer.Dial and DialContext of the standard library, called in a function run by RunInNetNS: a name with IPv4 and IPv6 addresses
    is dialled over TCP by two goroutines, which are on other threads than the caller (net/dial.go dialParallel), unless there is a local
    address; everything else is done on the thread of the caller. *)
Definition v4b (ip : bytes) : bool := match to4 ip with Some _ => true | None => false end.
Definition races (network address : string) (local : bytes) : bool :=
  match SplitHostPort address with
  | None => false
  | Some (h, _) =>
      String.eqb network "tcp" &&
      match parseIP h, local with [], [] => existsb v4b (w_lookup w h) && existsb (fun ip => negb (v4b ip)) (w_lookup w h) | _, _ => false end
  end.
Definition kind (network : string) : socktype := if String.eqb network "udp" then Dgram else Stream.
Definition netDial (p : place) (network address : string) (o : sockopts) (local : bytes) : conn :=
  Conn (if races network address local then Here else p) (kind network) o local (Text address).

(** socks5.go:50-84 NewSocks5Dialer, 86-102 socks5SockOptsDialer: the hook for one socket. The default of the library is net.DialTCP or
    net.DialUDP with resolved addresses. *)
Definition socks_hook (s : socks) (p : place) (network : string) (laddr raddr : string) : conn :=
  if usesXSocket (s_ns s) then
    Conn (match s_ns s with Some n => XSock (ns_xsocket n) | None => p end) (kind network) (s_opts s) (socks5LocalIP parseIP laddr) (Text raddr)
  else if active (s_opts s) then netDial p network raddr (s_opts s) (socks5LocalIP parseIP laddr)
  else Conn p (kind network) no_opts (socks5LocalIP parseIP laddr) (Text raddr).
(** socks5.go:104-156 Dial for the first time: the library opens a TCP connection to the proxy and for UDP in addition a socket to the
    address that the proxy names *)
Definition socks_dial (s : socks) (p : place) (network address : string) : reach :=
  let '(_, (src, ask)) := Dial parseIP (w_show w) (w_lookup4 w) (s_dial s) None address in
  Reach (socks_hook s p "tcp" src (s_server s) ::
         if String.eqb network "udp" then [socks_hook s p "udp" src (w_relay w (s_server s))] else [])
        (Some (ask, s_user s, s_password s)).

(** dnsclient.go:112-174 Dial: the network without -tls, and the sockets; None: an error *)
Definition plain_net (network : string) : string := if String.eqb network "tcp-tls" then "tcp" else network.
Definition generic_dial (g : generic) (address : string) : option reach :=
  let network := plain_net (g_net g) in
  match g_dialer g with
  | None =>
      let '(a, l) := dial parseIP (w_show w) (w_lookup w) address (g_local g) (g_local4 g) (g_local6 g) in
      if isSet (g_ns g) then
        if usesXSocket (g_ns g) then
          match g_ns g with Some n => Some (Reach [Conn (XSock (ns_xsocket n)) (kind network) (g_opts g) l (Text a)] None) | None => None end
        else match run_place (g_ns g) with None => None | Some p => Some (Reach [netDial p network a (g_opts g) l] None) end
      else Some (Reach [netDial Here network a (g_opts g) l] None)
  | Some s =>
      if isSet (g_ns g) then
        if usesXSocket (g_ns g) then Some (socks_dial s Here network address)
        else match run_place (g_ns g) with None => None | Some p => Some (socks_dial s p network address) end
      else Some (socks_dial s Here network address)
  end.

(** dtlsclient.go:142-160 dtlsDialer.Dial *)
Definition dtls_dial (laddr : bytes) (raddr : bytes * Z) (ns : option netns) (o : sockopts) : option reach :=
  match listenInNetNS Dgram ns "udp" (Udp laddr 0) o with
  | None => None
  | Some s => Some (Reach [Conn (k_place s) Dgram (k_opts s) laddr (Ip (fst raddr) (snd raddr))] None)
  end.

(** dohclient.go:343-382: the DialContext of the HTTP transport, for the address that net/http asks for; without any of these settings it is
    net/http's own *)
Definition custom (o : dohopt) : bool :=
  negb (String.eqb (t_boot o) "") || match t_local o, t_local4 o, t_local6 o with [], [], [] => false | _, _, _ => true end ||
  match t_dialer o with Some _ => true | None => false end || isSet (t_ns o) || active (t_opts o).
Definition bootstrapped (boot address : string) : option string :=
  if String.eqb boot "" then Some address
  else match SplitHostPort address with None => None | Some (_, port) => Some (JoinHostPort boot port) end.
Definition doh_dial (o : dohopt) (address : string) : option reach :=
  if negb (custom o) then Some (Reach [Conn Here Stream no_opts [] (Text address)] None)
  else match bootstrapped (t_boot o) address with
  | None => None
  | Some a =>
      match t_dialer o with
      | Some s =>
          if usesXSocket (t_ns o) then Some (socks_dial s Here "tcp" a)
          else match run_place (t_ns o) with None => None | Some p => Some (socks_dial s p "tcp" a) end
      | None =>
          let '(a, l) := dial parseIP (w_show w) (w_lookup w) a (t_local o) (t_local4 o) (t_local6 o) in
          if usesXSocket (t_ns o) then
            match t_ns o with Some n => Some (Reach [Conn (XSock (ns_xsocket n)) Stream (t_opts o) l (Text a)] None) | None => None end
          else match run_place (t_ns o) with None => None | Some p => Some (Reach [netDial p "tcp" a (t_opts o) l] None) end
      end
  end.

(** The socket used for a peer: dohclient.go:499-502 and doqclient.go:182-187 *)
Definition quic_sock (q : quic) (ip : bytes) : sock := match q with Single s => s | Dual s4 s6 => if v4b ip then s4 else s6 end.
Definition bound (s : sock) : bytes := match k_addr s with Udp ip _ => ip | _ => [] end.
Definition quic_send (q : quic) (address : string) : option reach :=
  match w_udp w address with
  | None => None
  | Some (ip, port) => let s := quic_sock q ip in Some (Reach [Conn (k_place s) Dgram (k_opts s) (bound s) (Ip ip port)] None)
  end.
(** dohclient.go:432-444 and 487-504 *)
Definition doh3_dial (o : dohopt) (q : quic) (address : string) : option reach :=
  match bootstrapped (t_boot o) address with None => None | Some a => quic_send q a end.
Definition transport_dial (t : transport) (address : string) : option reach :=
  match t with OverTcp _ o => doh_dial o address | OverQuic _ q o _ => doh3_dial o q address end.

(** ** Constructors *)
(** A UDP socket for QUIC: doqclient.go:281-287, dohclient.go:419-424, 467-477 *)
Definition quic_socket (ns : option netns) (network : string) (local : bytes) (o : sockopts) : option sock :=
  match listenInNetNS Dgram ns network (Udp local 0) o with
  | None => None
  | Some s => if w_bind w s then Some s else None
  end.
(** doqclient.go:116-144 and dohclient.go:408-424, which differ in the network of two sockets *)
Definition quic_sockets (n4 n6 : string) (ns : option netns) (l v4 v6 : bytes) (o : sockopts) : option quic :=
  match v4, v6 with
  | _ :: _, _ :: _ =>
      match quic_socket ns n4 v4 o, quic_socket ns n6 v6 o with Some s4, Some s6 => Some (Dual s4 s6) | _, _ => None end
  | _, _ =>
      let a := match l with [] => IPv4zero | _ => l end in
      let a := match v4 with [] => a | _ => v4 end in
      let a := match v6 with [] => a | _ => v6 end in
      match quic_socket ns "udp" a o with Some s => Some (Single s) | None => None end
  end.

(** pipeline.go:15 and 40-42, doqclient.go:93-95, dohclient.go:165-167 *)
Definition defaultQueryTimeout : Z := 2000000000.
Definition timeout_or_default (t : Z) : Z := if Z.eqb t 0 then defaultQueryTimeout else t.
(** dohclient.go:29 *)
Definition defaultDoHIdleTimeout : Z := 30000000000.
Definition valid_endpoint (e : string) : bool := validEndpoint SplitHostPort (fun h => match parseIP h with [] => false | _ => true end) e.

(** A DoH client: the options that Client_model.v works with, URL template, TLS, timeout, transport *)
Record dohclient := DohClient { d_opt : Client_model.dohcopt; d_url : string; d_tls : conf; d_timeout : Z; d_transport : transport }.
Inductive client :=
| CDns (g : generic) (endpoint : string) (size : N) (timeout : Z)
| CDot (g : generic) (endpoint : string) (tls : conf) (timeout : Z)
| CDtls (laddr : bytes) (raddr : bytes * Z) (tls : conf) (size : N) (timeout : Z) (ns : option netns) (o : sockopts)
| CDoh (d : dohclient)
| CDoq (endpoint : string) (q : quic) (tls : conf) (timeout : Z) (early : bool)
| COdoh (d : dohclient) (name port path : string) (config : string).

(** dnsclient.go:53-76 NewDNSClient *)
Definition newDNSClient (endpoint : string) (g : generic) (size : N) : option client :=
  if valid_endpoint endpoint then Some (CDns g endpoint size (timeout_or_default (g_timeout g))) else None.
(** dotclient.go:47-80 NewDoTClient: the dialer gets no timeout; the TLS configuration is there *)
Definition newDoTClient (endpoint boot : string) (g : generic) (tls : conf) (timeout : Z) : option client :=
  if valid_endpoint endpoint then
    if String.eqb boot "" then Some (CDot g endpoint tls (timeout_or_default timeout))
    else match SplitHostPort endpoint with
         | None => None
         | Some (host, port) => Some (CDot g (JoinHostPort boot port) (Tls_model.with_name CA Cert tls host) (timeout_or_default timeout))
         end
  else None.
(** dtlsclient.go:51-106 NewDTLSClient *)
Definition newDTLSClient (endpoint boot : string) (l v4 v6 : bytes) (tls : conf) (size : N) (timeout : Z) (ns : option netns) (o : sockopts) : option client :=
  if valid_endpoint endpoint then
    match SplitHostPort endpoint with
    | None => None
    | Some (host, port) =>
        match atoi port with
        | None => None
        | Some p =>
            let target :=
              if String.eqb boot "" then match w_lookup w host with [] => None | ip :: _ => Some (ip, tls) end
              else match parseIP boot with [] => None | ip => Some (ip, Tls_model.with_name CA Cert tls host) end in
            match target with
            | None => None
            | Some (ip, tls) =>
                let la := if v4b ip then match v4 with [] => l | _ => v4 end else match v6 with [] => l | _ => v6 end in
                Some (CDtls la (ip, p) tls size (timeout_or_default timeout) ns o)
            end
        end
    end
  else None.
(** doqclient.go:58-147 NewDoQClient *)
Definition newDoQClient (endpoint boot : string) (l v4 v6 : bytes) (tls : conf) (timeout : Z) (early : bool) (ns : option netns) (o : sockopts) : option client :=
  if valid_endpoint endpoint then
    match SplitHostPort endpoint with
    | None => None
    | Some (host, port) =>
        match quic_sockets "udp" "udp" ns l v4 v6 o with
        | None => None
        | Some q => Some (CDoq (if String.eqb boot "" then endpoint else JoinHostPort boot port) q (Tls_model.with_name CA Cert tls host)
                               (timeout_or_default timeout) early)
        end
    end
  else None.
(** dohclient.go:106-177 NewDoHClient with dohTcpTransport (320-342) and dohQuicTransport (387-457). The order of the tests differs:
    which error is reported is not modelled. *)
Definition newDoHClient (endpoint : string) (m : Client_model.dohcopt) (tls : conf) (timeout : Z) (o : dohopt) : option dohclient :=
  if Z.ltb (t_idle o) 0 then None
  else match w_template w endpoint with
  | None => None
  | Some names =>
      match Client_model.newDoHClient (existsb (String.eqb "dns") names) m with
      | None => None
      | Some m' =>
          if String.eqb (Client_model.dc_transport m) "quic" then
            match w_url w endpoint with
            | None => None
            | Some u =>
                match quic_sockets "udp4" "udp6" (t_ns o) (t_local o) (t_local4 o) (t_local6 o) (t_opts o) with
                | None => None
                | Some q => Some (DohClient m' endpoint (Tls_model.with_name CA Cert tls (u_hostname u)) (timeout_or_default timeout)
                                            (OverQuic (t_idle o) q o (Client_model.dc_0rtt m)))
                end
            end
          else Some (DohClient m' endpoint tls (timeout_or_default timeout)
                               (OverTcp (if Z.eqb (t_idle o) 0 then defaultDoHIdleTimeout else t_idle o) o))
      end
  end.
(** odohclient.go:40-65 NewODoHClient *)
Definition newODoHClient (proxy target config : string) (m : Client_model.dohcopt) (tls : conf) (timeout : Z) (o : dohopt) : option client :=
  match newDoHClient (if String.eqb proxy "" then target else proxy) m tls timeout o with
  | None => None
  | Some d => match w_url w target with None => None | Some u => Some (COdoh d (u_hostname u) (u_port u) (w_path w target) config) end
  end.

(** cmd/routedns/resolver.go:166-185 socks5DialerFromConfig *)
Definition socks5DialerFromConfig (r : settings) (ns : option netns) (o : sockopts) : option socks :=
  if String.eqb (p_address r) "" then None
  else Some (Socks (p_address r) (p_user r) (p_password r) 5000000000 0
                   (SOpt (parseIP (r_local r)) (parseIP (r_local4 r)) (parseIP (r_local6 r)) (p_resolve r)) ns o).

(** static_default_ports.go:9-16 *)
Definition DoQPort : string := "8853". Definition DoTPort : string := "853". Definition DTLSPort : string := "853".
Definition DoHPort : string := "443". Definition PlainDNSPort : string := "53".

(** cmd/routedns/resolver.go:12-162 instantiateResolver; None: an error *)
Definition instantiateResolver (r : settings) : option client :=
  match buildNetNS (r_netns r) (r_xsocket r) with
  | None => None
  | Some ns =>
      let o := SockOpts (r_mark r) (r_bindif r) in
      let withPort p := AddressWithDefault (w_url w) (r_address r) p in
      let l := parseIP (r_local r) in let l4 := parseIP (r_local4 r) in let l6 := parseIP (r_local6 r) in
      let timeout := seconds (r_timeout r) in
      let tls := Tls_model.TLSClientConfig CA Cert (w_pem w) (w_load w) (r_ca r) (r_crt r) (r_key r) (r_server r) in
      let socks := socks5DialerFromConfig r ns o in
      if String.eqb (r_protocol r) "doq" then
        match tls with None => None | Some c => newDoQClient (withPort DoQPort) (r_boot r) l l4 l6 c timeout (r_0rtt r) ns o end
      else if String.eqb (r_protocol r) "dot" then
        match tls with None => None | Some c => newDoTClient (withPort DoTPort) (r_boot r) (Generic socks "tcp-tls" l l4 l6 0 ns o) c timeout end
      else if String.eqb (r_protocol r) "dtls" then
        match Tls_model.DTLSClientConfig CA Cert (w_pem w) (w_load w) (r_ca r) (r_crt r) (r_key r) with
        | None => None
        | Some c => newDTLSClient (withPort DTLSPort) (r_boot r) l l4 l6 c (r_size r) timeout ns o
        end
      else if String.eqb (r_protocol r) "doh" then
        match tls with
        | None => None
        | Some c => match newDoHClient (withPort DoHPort) (Client_model.DohCOpt (h_method r) (r_transport r) (r_0rtt r)) c timeout
                                       (DohOpt (r_boot r) l l4 l6 (seconds (h_idle r)) socks ns o) with
                    | None => None | Some d => Some (CDoh d) end
        end
      else if String.eqb (r_protocol r) "odoh" then
        match tls with
        | None => None
        | Some c => newODoHClient (r_address r) (o_target r) (o_config r) (Client_model.DohCOpt (h_method r) (r_transport r) false) c timeout
                                  (DohOpt (r_boot r) l l4 l6 (seconds (h_idle r)) None ns o)
        end
      else if String.eqb (r_protocol r) "tcp" || String.eqb (r_protocol r) "udp" then
        newDNSClient (withPort PlainDNSPort) (Generic socks (r_protocol r) l l4 l6 timeout ns o) (r_size r)
      else None
  end.

(** ** Using a client *)
(** The sockets of a connection. Clients over HTTP connect to the addresses that net/http asks for, those of the URL, of redirections and
    of the target's key; others to their endpoint. *)
Definition connect (c : client) (address : string) : option reach :=
  match c with
  | CDns g e _ _ | CDot g e _ _ => generic_dial g e
  | CDtls la ra _ _ _ ns o => dtls_dial la ra ns o
  | CDoh d | COdoh d _ _ _ _ => transport_dial (d_transport d) address
  | CDoq e q _ _ _ => quic_send q e
  end.
(** The size for setUDPSize in Resolve *)
Definition udp_size (c : client) : N := match c with CDns _ _ n _ | CDtls _ _ _ n _ _ _ => n | _ => 0%N end.
(** How long a query may take; the timeout of connecting, which net.Dialer does not have if it is 0 *)
Definition query_timeout (c : client) : Z :=
  match c with CDns _ _ _ t | CDot _ _ _ t | CDtls _ _ _ _ t _ _ | CDoq _ _ _ t _ => t | CDoh d | COdoh d _ _ _ _ => d_timeout d end.
Definition tls_of (c : client) : option conf :=
  match c with CDns _ _ _ _ => None | CDot _ _ t _ | CDtls _ _ t _ _ _ _ | CDoq _ _ t _ _ => Some t | CDoh d | COdoh d _ _ _ _ => Some (d_tls d) end.
End R.
