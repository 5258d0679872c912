(** tls.go and dtls.go: configurations of TLS servers and clients, and the name each kind of client checks certificates against
    (dotclient.go, dnsclient.go, doqclient.go, dtlsclient.go, dohclient.go, cmd/routedns/main.go and resolver.go).
    Quantified: files, certificate verification, name lookups, url.Parse. The handshakes themselves belong to the libraries; what they do
    with a configuration is below ("handshake"). Not modelled: validEndpoint (Hostname_model.v), connections, session caches, ALPN. *)
From Verif Require Import Base Bytes Net Addr_model.
Local Open Scope string_scope.

Section Tls.
Variables CA Cert : Type.
(** os.ReadFile with AppendCertsFromPEM: None if the file cannot be read, else the certificates found *)
Variable pem : string -> option (list CA).
(** tls.LoadX509KeyPair *)
Variable loadPair : string -> string -> option Cert.

(** The fields of tls.Config and dtls.Config that are set: ClientAuth is RequireAndVerifyClientCert (or else NoClientCert), pools (None is
    nil), the certificate (None: Certificates is empty), ServerName, MinVersion (0 if not set) *)
Record conf := Conf { t_auth : bool; t_clientCAs : option (list CA); t_rootCAs : option (list CA); t_cert : option Cert; t_name : string; t_min : N }.
Definition with_name (c : conf) (name : string) : conf := Conf (t_auth c) (t_clientCAs c) (t_rootCAs c) (t_cert c) name (t_min c).

(** tls.go:23-33, 65-74, dtls.go: the pool of a file name; outer None is an error *)
Definition pool (caFile : string) : option (option (list CA)) :=
  if String.eqb caFile "" then Some None
  else match pem caFile with None => None | Some [] => None | Some cas => Some (Some cas) end.
(** tls.go:35-42, 55-61, dtls.go: the certificate; outer None is an error *)
Definition pair (crtFile keyFile : string) : option (option Cert) :=
  if negb (String.eqb crtFile "") && negb (String.eqb keyFile "") then option_map Some (loadPair crtFile keyFile) else Some None.
Definition VersionTLS12 : N := 771.

(** tls.go:13-44 TLSServerConfig *)
Definition TLSServerConfig (caFile crtFile keyFile : string) (mutualTLS : bool) : option conf :=
  if mutualTLS && String.eqb caFile "" then None
  else match pool caFile with
       | None => None
       | Some p => match pair crtFile keyFile with None => None | Some c => Some (Conf mutualTLS p None c "" VersionTLS12) end
       end.
(** tls.go:48-76 TLSClientConfig *)
Definition TLSClientConfig (caFile crtFile keyFile serverName : string) : option conf :=
  match pair crtFile keyFile with
  | None => None
  | Some c => match pool caFile with None => None | Some p => Some (Conf false None p c serverName VersionTLS12) end
  end.
(** dtls.go:15-44 DTLSServerConfig *)
Definition DTLSServerConfig (caFile crtFile keyFile : string) (mutualTLS : bool) : option conf :=
  if mutualTLS && String.eqb caFile "" then None
  else match pool caFile with
       | None => None
       | Some p => match pair crtFile keyFile with None => None | Some c => Some (Conf mutualTLS p None c "" 0) end
       end.
(** dtls.go:48-74 DTLSClientConfig *)
Definition DTLSClientConfig (caFile crtFile keyFile : string) : option conf :=
  match pair crtFile keyFile with
  | None => None
  | Some c => match pool caFile with None => None | Some p => Some (Conf false None p c "" 0) end
  end.

(** cmd/routedns/main.go:331-423: the configuration of a listener. Outer None is an error; inner None means no TLS. *)
Inductive lproto := LAdmin | LDot | LDtls | LDoh | LDoq | LOdoh.
Record lopt := LOpt { l_ca : string; l_crt : string; l_key : string; l_mutual : bool; l_notls : bool; l_quic : bool }.
Definition listener_conf (p : lproto) (l : lopt) : option (option conf) :=
  match p with
  | LDtls => option_map Some (DTLSServerConfig (l_ca l) (l_crt l) (l_key l) (l_mutual l))
  | LDoh => if l_notls l then if l_quic l then None else Some None
            else option_map Some (TLSServerConfig (l_ca l) (l_crt l) (l_key l) (l_mutual l))
  | _ => option_map Some (TLSServerConfig (l_ca l) (l_crt l) (l_key l) (l_mutual l))
  end.

(** ** Clients *)
Variable parseIP : string -> bytes.
Variable showIP : bytes -> string.
Variable lookup : string -> list bytes.
(** url.Parse and Hostname() *)
Variable urlHost : string -> option string.
Inductive cproto := DoT | DoQ | DTLS | DoH | DoHQuic.
Record ropt := ROpt { r_address : string; r_bootstrap : string; r_ca : string; r_crt : string; r_key : string; r_server : string;
                      r_dialer : bool (* a SOCKS5 dialer *) }.

(** dotclient.go:67-74: the endpoint and the configuration *)
Definition dot_client (r : ropt) (c : conf) : option (string * conf) :=
  if String.eqb (r_bootstrap r) "" then Some (r_address r, c)
  else match SplitHostPort (r_address r) with
       | None => None
       | Some (host, port) => Some (JoinHostPort (r_bootstrap r) port, with_name c host)
       end.
(** dnsclient.go:121-124 and 186-201: the configuration used for the connection; line 124 replaces the address *)
Definition dot_dial (r : ropt) (endpoint : string) (c : conf) : option conf :=
  let address := if r_dialer r then endpoint else resolveEndpointAddr parseIP showIP lookup endpoint in
  match SplitHostPort address with
  | None => None
  | Some (hostname, _) => Some (if String.eqb (t_name c) "" then with_name c hostname else c)
  end.
(** doqclient.go:66-86 *)
Definition doq_client (r : ropt) (c : conf) : option conf :=
  match SplitHostPort (r_address r) with None => None | Some (host, _) => Some (with_name c host) end.
(** dtlsclient.go:53-80 *)
Definition dtls_client (r : ropt) (c : conf) : option conf :=
  match SplitHostPort (r_address r) with
  | None => None
  | Some (host, _) =>
      if String.eqb (r_bootstrap r) "" then match lookup host with [] => None | _ => Some c end
      else match parseIP (r_bootstrap r) with [] => None | _ => Some (with_name c host) end
  end.
(** dohclient.go:318-347 dohTcpTransport: net/http sets an empty ServerName to the host of the URL *)
Definition doh_client (r : ropt) (c : conf) : option conf :=
  match urlHost (r_address r) with None => None | Some h => Some (if String.eqb (t_name c) "" then with_name c h else c) end.
(** dohclient.go:387-401 dohQuicTransport *)
Definition dohquic_client (r : ropt) (c : conf) : option conf :=
  match urlHost (r_address r) with None => None | Some h => Some (with_name c h) end.
(** cmd/routedns/resolver.go:27-136 *)
Definition client_conf (p : cproto) (r : ropt) : option conf :=
  match p with
  | DTLS => match DTLSClientConfig (r_ca r) (r_crt r) (r_key r) with None => None | Some c => dtls_client r c end
  | _ =>
      match TLSClientConfig (r_ca r) (r_crt r) (r_key r) (r_server r) with
      | None => None
      | Some c =>
          match p with
          | DoT => match dot_client r c with None => None | Some (e, c') => dot_dial r e c' end
          | DoQ => doq_client r c
          | DoH => doh_client r c
          | _ => dohquic_client r c
          end
      end
  end.

(** ** What the libraries do with a configuration (trusted; crypto/tls and pion/dtls from their documentation) *)
(** Does a certificate verify against a pool; None stands for the roots of the system *)
Variable verify : Cert -> option (list CA) -> bool.
(** Is it for that name or address *)
Variable valid_for : Cert -> string -> bool.
(** A server without a certificate completes no handshake. With RequireAndVerifyClientCert the client's is verified against ClientCAs
    (nil: the system's). *)
Definition server_accepts (c : conf) (client : option Cert) : bool :=
  match t_cert c with
  | None => false
  | Some _ => if t_auth c then match client with None => false | Some x => verify x (t_clientCAs c) end else true
  end.
(** crypto/tls insists on a name. pion/dtls checks no name if there is none, or if it is an IP address. *)
Definition client_accepts (p : cproto) (c : conf) (server : Cert) : bool :=
  verify server (t_rootCAs c) &&
  match p with
  | DTLS => if String.eqb (t_name c) "" || match parseIP (t_name c) with [] => false | _ => true end then true else valid_for server (t_name c)
  | _ => if String.eqb (t_name c) "" then false else valid_for server (t_name c)
  end.
End Tls.
