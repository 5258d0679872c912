(** The socket of each kind of listener: cmd/routedns/main.go:289-423, the Start methods of the listeners, and netns_linux.go:83-142.
    Quantified: address resolution, net.ParseIP. Not modelled: creating the socket (xsockets: XDial_model.v; namespaces: RunNs_model.v). *)
From Verif Require Import Base Bytes Net Router_model Addr_model RunNs_model XDial_model Redis_model.
Local Open Scope string_scope.

Inductive lprot := PTcp | PUdp | PAdmin | PDot | PDtls | PDoh | PDoq | POdoh.
(** The part of the configuration of a listener that matters; q is transport = "quic" *)
Record lconf := LConf { c_addr : string; c_ipv : N; c_netns : string; c_xsocket : string; c_opts : sockopts; c_quic : bool }.

(** How a socket is asked for: where, TCP or UDP, network, address, options *)
Inductive place := Here | InNs (name : string) | XSock (path : string).
Inductive laddr := Text (s : string) | Udp (ip : bytes) (port : Z).
Record sock := Sock { k_place : place; k_type : socktype; k_net : string; k_addr : laddr; k_opts : sockopts }.

(** sockopts.go:15-17 active *)
Definition active (o : sockopts) : bool := N.ltb 0 (o_mark o) || negb (String.eqb (o_bind o) "").
Definition no_opts : sockopts := SockOpts 0 "".
(** cmd/routedns/main.go:1352-1360 buildNetNS; outer None is an error *)
Definition buildNetNS (name xsocket : string) : option (option netns) :=
  if negb (String.eqb name "") && negb (String.eqb xsocket "") then None
  else if String.eqb name "" && String.eqb xsocket "" then Some None
  else Some (Some (NetNS name xsocket)).
(** cmd/routedns/main.go:1197-1202 networkForIPVersion *)
Definition networkForIPVersion (base : string) (v : N) : string := if N.eqb v 0 then base else base ++ itoa v.

(** RunInNetNS: where a socket created by the function is; None is an error (netns_linux.go:48-53) *)
Definition run_place (ns : option netns) : option place :=
  match how_to_run ns with Refuse => None | Direct => Some Here | Switch n => Some (InNs n) end.
(** netns_linux.go:83-95 ListenInNetNS, 100-113 ListenPacketInNetNS, 120-140 ListenUDPInNetNS: options are set before binding in either case
    (Control; XDial_model.listenXSocket) *)
Definition listenInNetNS (t : socktype) (ns : option netns) (network : string) (a : laddr) (o : sockopts) : option sock :=
  if usesXSocket ns then match ns with Some n => Some (Sock (XSock (ns_xsocket n)) t network a o) | None => None end
  else match run_place ns with None => None | Some p => Some (Sock p t network a o) end.
(** dns.Server.ListenAndServe of github.com/miekg/dns: no namespace, no options *)
Definition listenAndServe (network : string) (a : string) : option sock :=
  if existsb (String.eqb network) ["tcp"; "tcp4"; "tcp6"] then Some (Sock Here Stream network (Text a) no_opts)
  else if existsb (String.eqb network) ["tcp-tls"; "tcp4-tls"; "tcp6-tls"] then Some (Sock Here Stream (substring 0 (String.length network - 4) network) (Text a) no_opts)
  else if existsb (String.eqb network) ["udp"; "udp4"; "udp6"] then Some (Sock Here Dgram network (Text a) no_opts)
  else None.

Section L.
(** net.ResolveUDPAddr *)
Variable resolveUDP : string -> option (bytes * Z).
Variable parseIP : string -> bytes.

(** dnslistener.go:47-72 Start, startWithSocketSetup *)
Definition dns_start (network addr : string) (ns : option netns) (o : sockopts) : option sock :=
  if isSet ns || active o then
    if prefix "tcp" network then listenInNetNS Stream ns network (Text addr) o
    else if prefix "udp" network then listenInNetNS Dgram ns network (Text addr) o
    else None
  else listenAndServe network addr.
(** dotlistener.go:27-35 the network of NewDoTListener, 50-64 Start *)
Definition dot_network (network : string) : string :=
  if String.eqb network "" || String.eqb network "tcp" then "tcp-tls" else if String.eqb network "tcp4" then "tcp4-tls"
  else if String.eqb network "tcp6" then "tcp6-tls" else network.
Definition dot_start (network addr : string) (ns : option netns) (o : sockopts) : option sock :=
  if isSet ns || active o then listenInNetNS Stream ns "tcp" (Text addr) o else listenAndServe (dot_network network) addr.
(** dtlslistener.go:51-76 Start: the address is parsed, not resolved; no options *)
Definition dtls_start (addr : string) (ns : option netns) : option sock :=
  match SplitHostPort addr with
  | None => None
  | Some (host, port) =>
      match atoi port with
      | None => None
      | Some p => match run_place ns with None => None | Some pl => Some (Sock pl Dgram "udp" (Udp (parseIP host) p) no_opts) end
      end
  end.
(** dohlistener.go:129-150 startTCP, adminlistener.go:84-105 *)
Definition http_start (addr : string) (ns : option netns) (o : sockopts) : option sock := listenInNetNS Stream ns "tcp" (Text addr) o.
(** dohlistener.go:153-184 startQUIC, adminlistener.go:108-136, doqlistener.go:83-91 *)
Definition quic_start (addr : string) (ns : option netns) (o : sockopts) : option sock :=
  match resolveUDP addr with None => None | Some (ip, port) => listenInNetNS Dgram ns "udp" (Udp ip port) o end.

(** cmd/routedns/main.go:301-423: the socket of a listener; None is an error. Addresses are as they are after AddressWithDefault (C67).
    odohlistener.go:88-95 gives its DoH listener no transport. *)
Definition listener_socket (p : lprot) (l : lconf) : option sock :=
  if negb (N.eqb (c_ipv l) 4) && negb (N.eqb (c_ipv l) 6) && negb (N.eqb (c_ipv l) 0) then None
  else match buildNetNS (c_netns l) (c_xsocket l) with
  | None => None
  | Some ns =>
      match p with
      | PTcp => dns_start (networkForIPVersion "tcp" (c_ipv l)) (c_addr l) ns (c_opts l)
      | PUdp => dns_start (networkForIPVersion "udp" (c_ipv l)) (c_addr l) ns (c_opts l)
      | PDot => dot_start (networkForIPVersion "tcp" (c_ipv l)) (c_addr l) ns (c_opts l)
      | PDtls => dtls_start (c_addr l) ns
      | PDoq => quic_start (c_addr l) ns (c_opts l)
      | POdoh => http_start (c_addr l) ns (c_opts l)
      | PAdmin | PDoh => if c_quic l then quic_start (c_addr l) ns (c_opts l) else http_start (c_addr l) ns (c_opts l)
      end
  end.
End L.
