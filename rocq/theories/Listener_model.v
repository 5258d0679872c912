(** Model of the listeners: dnslistener.go (also behind DoT and DTLS), dohlistener.go,
    doqlistener.go, odohlistener.go (target role) and the packet connection of net-resolver.go.
    A handler is a function from the request to the events it causes and the reply. The resolver,
    the encoding of messages, base64, the parsers of addresses and the truncation of the DNS
    library are variables. Metrics, logging, deadlines and HTTP headers of replies are left out. *)
From Verif Require Import Base Bytes Dns Net Cidr_model Modifiers_model Router_model.
Open Scope N_scope.

(** What a handler does besides replying *)
Inductive event :=
| Handshake                          (* waited until the handshake was complete *)
| Call (q : msg) (ci : client).      (* resolver called *)
(** How it ends *)
Inductive lout :=
| Written (m : msg)                  (* message handed to the transport *)
| Body (b : bytes)                   (* octets written *)
| Status (n : N)                     (* HTTP status, no message *)
| Closed                             (* connection closed *)
| Silent                             (* nothing sent *)
| Crash.                             (* panic *)
Notation run := (list event * lout)%type.

(** config.go:287-297 parseCIDRList *)
Definition parseCIDRList (parseAddr : string -> option bytes) (l : list string) : option (list ipnet) :=
  all_some (parse_net parseAddr) l.

(** dnslistener.go:162-172 isAllowed *)
Definition isAllowed (allowedNet : list ipnet) (ip : bytes) : bool :=
  match allowedNet with [] => true | _ => existsb (fun n => ipnet_contains n ip) allowedNet end.

Section Listeners.
Variable resolve : msg -> client -> result.
Variable base : msg -> N.
Variable optlen : edns0 -> N.
(** dns.Msg: Truncate, Unpack, Pack *)
Variable truncate : N -> msg -> msg.
Variable unpack : bytes -> option msg.
Variable pack : msg -> option bytes.

(** dnslistener.go:84-160 listenHandler. [src] is the address of the peer ([] if it is neither a
    TCP nor a UDP address), [tlsname] the server name of a TLS connection. *)
Definition listenHandler (id protocol : string) (allowedNet : list ipnet) (src : bytes) (tlsname : string) (req : msg) : run :=
  match m_question req with
  | [] => ([], Silent)
  | _ =>
      let ci := Client src "" tlsname id in
      let '(calls, a) :=
        if isAllowed allowedNet src
        then ([Call req ci], match resolve req ci with Ans a => Some a | Drop => None | Err _ => Some (servfail req) end)
        else ([], Some (set_rcode empty_msg req RcodeRefused)) in
      match a with
      | None => (calls, Closed)
      | Some a =>
          let padded := if String.eqb protocol "dot" || String.eqb protocol "dtls" then padAnswer base optlen req a else Some (stripPadding a) in
          match padded with
          | None => (calls, Crash)
          | Some a =>
              let a := if String.eqb protocol "udp" || String.eqb protocol "dtls"
                       then truncate (match is_edns0 req with Some o => opt_udpsize o | None => 512 end) a else a in
              (calls, Written a)
          end
      end
  end.

(** An HTTP request: method, values of the parameter dns, content type, the octets of the body that
    arrive, whether reading them ends with an error, TLS state (handshake complete, server name),
    remote address, values of X-Forwarded-For, path. *)
Record httpreq := HttpReq {
  h_method : string; h_dns : list string; h_ctype : string; h_body : bytes; h_broken : bool;
  h_tls : option (bool * string); h_remote : string; h_xff : list string; h_path : string }.

(** base64.RawURLEncoding.DecodeString, net.SplitHostPort (the host, "" on error), net.ParseIP
    ([] is nil) *)
Variable base64dec : string -> option bytes.
Variable splitHost : string -> string.
Variable parseIP : string -> bytes.

(** strings.LastIndex(s, ",") and what follows it; s if there is none *)
Fixpoint after_last (c : ascii) (s : string) : string :=
  match s with
  | EmptyString => EmptyString
  | String d s' => if contains c s' then after_last c s' else if Ascii.eqb d c then s' else s
  end.

Definition is_nil (ip : bytes) : bool := match ip with [] => true | _ => false end.
(** net.IP.IsLoopback *)
Definition isLoopback (ip : bytes) : bool :=
  match to4 ip with
  | Some (x :: _) => x =? 127
  | Some [] => false
  | None => if list_eq_dec N.eq_dec ip [0;0;0;0;0;0;0;0;0;0;0;0;0;0;0;1] then true else false
  end.

(** dohlistener.go:268-312 extractClientAddress *)
Definition extractClientAddress (proxyNet : option ipnet) (r : httpreq) : bytes :=
  let clientIP := parseIP (splitHost (h_remote r)) in
  let xForwardedFor := String.concat ", " (h_xff r) in
  match proxyNet with
  | None => clientIP
  | Some net =>
      if String.eqb xForwardedFor "" then clientIP else
      let last := if contains "," xForwardedFor then after_last "," xForwardedFor else xForwardedFor in
      if negb (is_nil clientIP) && ipnet_contains net clientIP then
        let ip := parseIP (trim_space last) in
        if negb (is_nil ip) && negb (isLoopback ip) then ip else clientIP
      else clientIP
  end.

Record dohopt := DohOpt { do_id : string; do_allowed : list ipnet; do_proxy : option ipnet }.

(** dohlistener.go:314-395 parseAndRespond *)
Definition parseAndRespond (o : dohopt) (b : bytes) (r : httpreq) : run :=
  match unpack b with
  | None => ([], Status 400)
  | Some q =>
      match m_question q with
      | [] => ([], Status 400)
      | _ =>
          if (match h_tls r with Some (done, _) => negb done | None => false end) && negb (isReplayableOpcode (m_opcode q)) then ([], Status 425) else
          let clientIP := extractClientAddress (do_proxy o) r in
          if is_nil clientIP then ([], Status 400) else
          let ci := Client clientIP (h_path r) (match h_tls r with Some (_, n) => n | None => "" end) (do_id o) in
          let '(calls, a) :=
            if isAllowed (do_allowed o) clientIP
            then ([Call q ci], match resolve q ci with Ans a => Some a | Drop => None | Err _ => Some (set_rcode empty_msg q RcodeServerFailure) end)
            else ([], Some (set_rcode empty_msg q RcodeRefused)) in
          match a with
          | None => (calls, Status 403)
          | Some a =>
              match padAnswer base optlen q a with
              | None => (calls, Crash)
              | Some a => match pack a with None => (calls, Status 500) | Some out => (calls, Body out) end
              end
          end
      end
  end.

(** dohlistener.go:227-242 getHandler. A parameter that is present has at least one value. *)
Definition getHandler (o : dohopt) (r : httpreq) : run :=
  match h_dns r with
  | [] => ([], Status 400)
  | s :: _ => match base64dec s with None => ([], Status 400) | Some b => parseAndRespond o b r end
  end.

(** dohlistener.go:31 maxDoHRequestSize *)
Definition maxDoHRequestSize : nat := N.to_nat 65535.
(** io.ReadAll(http.MaxBytesReader(w, body, limit)) *)
Inductive readres := RData (b : bytes) | RTooLarge | RError.
Definition read_max (limit : nat) (r : httpreq) : readres :=
  if Nat.ltb limit (length (h_body r)) then RTooLarge else if h_broken r then RError else RData (h_body r).
(** dohlistener.go:244-264 postHandler *)
Definition postHandler (o : dohopt) (r : httpreq) : run :=
  match read_max maxDoHRequestSize r with
  | RTooLarge => ([], Status 413)
  | RError => ([], Status 400)
  | RData b => parseAndRespond o b r
  end.

(** dohlistener.go:213-225 dohHandler *)
Definition dohHandler (o : dohopt) (r : httpreq) : run :=
  if String.eqb (h_method r) "GET" then getHandler o r
  else if String.eqb (h_method r) "POST" then postHandler o r
  else ([], Status 405).

(** ** doqlistener.go *)
(** The handshake of a connection: complete when the stream is handled, completing later, or the
    connection ends before. *)
Inductive handshake := HsDone | HsLater | HsNever.

(** binary.BigEndian.PutUint16(out, uint16(len(p))) and p *)
Definition frame (p : bytes) : bytes :=
  let n := N.of_nat (length p) mod 65536 in n / 256 :: n mod 256 :: p.
(** binary.Read of the length and io.ReadFull of the message *)
Definition read_frame (data : bytes) : option bytes :=
  match data with
  | h :: l :: rest =>
      let n := N.to_nat (h * 256 + l) in
      if Nat.leb n (length rest) then Some (firstn n rest) else None
  | _ => None
  end.
Definition has_keepalive (q : msg) : bool :=
  match is_edns0 q with Some o => existsb (fun x => N.eqb (opt_code x) 11) (opt_options o) | None => false end.

(** doqlistener.go:180-282 handleStream. [data] is what arrives on the stream before its end or the
    read deadline. A nil answer is dereferenced by Pack. *)
Definition handleStream (ci : client) (hs : handshake) (data : bytes) : run :=
  match read_frame data with
  | None => ([], Silent)
  | Some b =>
      match unpack b with
      | None => ([], Silent)
      | Some q =>
          match m_question q with
          | [] => ([], Silent)
          | _ =>
              if has_keepalive q then ([], Silent) else
              match (if isReplayableOpcode (m_opcode q) then Some []
                     else match hs with HsNever => None | _ => Some [Handshake] end) with
              | None => ([], Silent)
              | Some w =>
                  let calls := w ++ [Call q ci] in
                  let a := match resolve q ci with Ans a => Some a | Drop => None | Err _ => Some (set_rcode empty_msg q RcodeServerFailure) end in
                  match a with
                  | None => (calls, Crash)
                  | Some a => match pack a with None => (calls, Silent) | Some p => (calls, Body (frame p)) end
                  end
              end
          end
      end
  end.

(** doqlistener.go:145-178 handleConnection: every stream is handled by a goroutine of its own. *)
Definition handleConnection (id : string) (allowedNet : list ipnet) (src : bytes) (tlsname : string) (streams : list (handshake * bytes)) : list run :=
  if isAllowed allowedNet src then map (fun '(hs, data) => handleStream (Client src "" tlsname id) hs data) streams else [].

(** ** odohlistener.go *)
(** odoh.UnmarshalDNSMessage and DecryptQuery; EncryptResponse and Marshal *)
Variable decrypt : bytes -> option bytes.
Variable encrypt : bytes -> option bytes.
(** odohlistener.go:188-267 ODoHqueryHandler. The listener of dohHandler is made in
    odohlistener.go:90-94 without a proxy network. *)
Definition ODoHqueryHandler (id : string) (allowDoH : bool) (allowedNet : list ipnet) (r : httpreq) : run :=
  if negb (String.eqb (h_method r) "POST") || String.eqb (h_ctype r) "application/dns-message" then
    if allowDoH then dohHandler (DohOpt id allowedNet None) r else ([], Status 405)
  else if negb (String.eqb (h_ctype r) "application/oblivious-dns-message") then ([], Status 405)
  else if h_broken r && Nat.ltb (length (h_body r)) (N.to_nat 4096) then ([], Status 400)
  else match decrypt (firstn (N.to_nat 4096) (h_body r)) with
  | None => ([], Status 400)
  | Some b =>
      match unpack b with
      | None => ([], Status 400)
      | Some q =>
          match m_question q with
          | [] => ([], Status 400)
          | _ =>
              match h_tls r with
              | None => ([], Crash)
              | Some (_, tlsname) =>
                  let ci := Client [] "" tlsname id in
                  let a := match resolve q ci with Ans a => Some a | Drop => None | Err _ => Some (set_rcode empty_msg q RcodeServerFailure) end in
                  match a with
                  | None => ([Call q ci], Status 403)
                  | Some a =>
                      match pack a with
                      | None => ([Call q ci], Silent)
                      | Some p => match encrypt p with None => ([Call q ci], Status 400) | Some b => ([Call q ci], Body b) end
                      end
                  end
              end
          end
      end
  end.

(** net-resolver.go:74-92 packetConn.Write: [Written] is a message queued for the reader, [Status 0]
    the error of the write. *)
Definition packetConn_Write (p : bytes) : run :=
  match unpack p with
  | None => ([], Status 0)
  | Some q =>
      let ci := Client [127;0;0;1] "" "" "" in
      ([Call q ci], match resolve q ci with Ans a => Written a | Drop => Status 0 | Err _ => Status 0 end)
  end.
End Listeners.
