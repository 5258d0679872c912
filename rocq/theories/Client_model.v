(** Model of the upstream clients over HTTP and QUIC: dohclient.go, odohclient.go, doqclient.go, and
    the queries the plain and TLS clients hand to the pipeline (Pipeline_model). HTTP, QUIC, URL
    templates, encryption and the encoding of messages are variables. Metrics, logging, timeouts and
    request headers are left out. *)
From Verif Require Import Base Bytes Dns Modifiers_model Listener_model.
Open Scope N_scope.

(** *** HTTP *)
(** A request: method, URL, body *)
Record hreq := HReq { hq_method : string; hq_url : string; hq_body : bytes }.
(** A response: status, content type, the octets of the body that arrive, whether reading them
    ends with an error *)
Record hresp := HResp { hr_status : N; hr_ctype : string; hr_body : bytes; hr_broken : bool }.

(** dohclient.go:36 maxDoHResponseSize *)
Definition maxDoHResponseSize : nat := N.to_nat (65535 + 512).
(** dohclient.go:44-53 readBoundedBody: io.ReadAll(io.LimitReader(r, limit+1)); the error of the
    reader is not seen once limit+1 octets were read *)
Definition readBoundedBody (limit : nat) (body : bytes) (broken : bool) : option bytes :=
  let b := firstn (limit + 1) body in
  if broken && Nat.ltb (length body) (limit + 1) then None
  else if Nat.ltb limit (length b) then None else Some b.

(** dohclient.go:56-93 DoHClientOptions: the fields used here *)
Record dohcopt := DohCOpt { dc_method : string; dc_transport : string; dc_0rtt : bool }.

(** http3.MethodGet0RTT *)
Definition MethodGet0RTT : string := "GET_0RTT".

Section Http.
Variable base : msg -> N.
Variable optlen : edns0 -> N.
Variable unpack : bytes -> option msg.
Variable pack : msg -> option bytes.
Variable base64 : bytes -> string.
(** uritemplates: the URL for a value of dns, if there is one; has the template this parameter *)
Variable expand : option string -> option string.
Variable has_dns : bool.
(** the HTTP client *)
Variable http : hreq -> option hresp.

(** dohclient.go:107-176 NewDoHClient: the options of the client; template and transports are
    assumed to be fine *)
Definition newDoHClient (o : dohcopt) : option dohcopt :=
  let o1 :=
    if dc_0rtt o then
      if negb (String.eqb (dc_transport o) "quic") then None
      else if negb has_dns then None
      else if String.eqb (dc_method o) "" then Some (DohCOpt "GET" (dc_transport o) (dc_0rtt o))
      else if String.eqb (dc_method o) "GET" then Some o
      else None
    else Some o in
  match o1 with
  | None => None
  | Some o =>
      if String.eqb (dc_transport o) "tcp" || String.eqb (dc_transport o) "" || String.eqb (dc_transport o) "quic" then
        let o := if String.eqb (dc_method o) "" then DohCOpt "POST" (dc_transport o) (dc_0rtt o) else o in
        if negb (String.eqb (dc_method o) "POST") && negb (String.eqb (dc_method o) "GET") then None else Some o
      else None
  end.

(** dohclient.go:236-252 buildPostRequest *)
Definition buildPostRequest (b : bytes) : option hreq :=
  match expand None with None => None | Some u => Some (HReq "POST" u b) end.
(** dohclient.go:254-286 buildGetRequest *)
Definition buildGetRequest (o : dohcopt) (b : bytes) (opcode : N) : option hreq :=
  match expand (Some (base64 b)) with
  | None => None
  | Some u =>
      let method := if dc_0rtt o && String.eqb (dc_transport o) "quic" && isReplayableOpcode opcode then MethodGet0RTT else "GET"%string in
      Some (HReq method u [])
  end.
(** dohclient.go:216-225 buildRequest *)
Definition buildRequest (o : dohcopt) (b : bytes) (opcode : N) : option hreq :=
  if String.eqb (dc_method o) "POST" then buildPostRequest b
  else if String.eqb (dc_method o) "GET" then buildGetRequest o b opcode
  else None.

(** dohclient.go:293-319 responseFromHTTP *)
Definition responseFromHTTP (q : msg) (r : hresp) : result :=
  if (hr_status r <? 200) || (299 <? hr_status r) then Err "status"
  else match readBoundedBody maxDoHResponseSize (hr_body r) (hr_broken r) with
  | None => Err "read"
  | Some b => match unpack b with
              | None => Err "unpack"
              | Some a => if validateResponseQuestion q a then Ans a else Err "question"
              end
  end.

(** dohclient.go:179-214 Resolve: the requests made and the outcome; a panic of padQuery is the
    error "panic" *)
Definition doh_resolve (o : dohcopt) (q : msg) : list hreq * result :=
  match padQuery base optlen q with
  | None => ([], Err "panic")
  | Some q =>
      match pack q with
      | None => ([], Err "pack")
      | Some b =>
          match buildRequest o b (m_opcode q) with
          | None => ([], Err "request")
          | Some req => ([req], match http req with None => Err "http" | Some r => responseFromHTTP q r end)
          end
      end
  end.

(** *** ODoH *)
(** odoh: EncryptQuery and Marshal; Unmarshal and OpenAnswer. [config] stands for
    getTargetConfig. *)
Variable encrypt : bytes -> option bytes.
Variable decrypt : bytes -> option bytes.
Variable config : bool.
(** odohclient.go:141-149 customizeRequest: the target in the query of the URL *)
Variable with_target : string -> string.

(** odohclient.go:100-138 decodeProxyResponse *)
Definition decodeProxyResponse (q : msg) (r : hresp) : result :=
  if (hr_status r <? 200) || (299 <? hr_status r) then Err "status"
  else if negb (String.eqb (hr_ctype r) "application/oblivious-dns-message") then Err "header"
  else match readBoundedBody maxDoHResponseSize (hr_body r) (hr_broken r) with
  | None => Err "read"
  | Some b => match decrypt b with
              | None => Err "decrypt"
              | Some d => match unpack d with
                          | None => Err "unpack"
                          | Some a => if validateResponseQuestion q a then Ans a else Err "question"
                          end
              end
  end.

(** odohclient.go:68-95 Resolve, 152-165 buildTargetQuery *)
Definition odoh_resolve (o : dohcopt) (q : msg) : list hreq * result :=
  if negb config then ([], Err "config") else
  match pack q with
  | None => ([], Err "pack")
  | Some b =>
      match encrypt b with
      | None => ([], Err "encrypt")
      | Some e =>
          match buildRequest o e (m_opcode q) with
          | None => ([], Err "request")
          | Some req =>
              let req := HReq (hq_method req) (with_target (hq_url req)) (hq_body req) in
              ([req], match http req with None => Err "http" | Some r => decodeProxyResponse q r end)
          end
      end
  end.
End Http.

(** *** DoQ *)
(** A QUIC connection: how its handshake goes and whether streams can be opened *)
Record qconn := QConn { qc_id : nat; qc_hs : handshake; qc_open : bool }.
Inductive cevent :=
| Dialed (c : qconn)                (* new connection *)
| Completed (c : qconn)             (* its handshake was found complete *)
| Ended (c : qconn)                 (* it was found gone *)
| Opened (c : qconn)                (* stream opened *)
| Wrote (c : qconn) (b : bytes).    (* octets written to the stream *)

(** doqclient.go:366-374 awaitReplaySafe *)
Definition awaitReplaySafe (replaySafe : bool) (c : qconn) : list cevent :=
  if replaySafe then [] else match qc_hs c with HsNever => [Ended c] | _ => [Completed c] end.
(** quic.Conn.OpenStream: fails on a connection that is gone *)
Definition openStream (replaySafe : bool) (c : qconn) : bool :=
  qc_open c && (replaySafe || match qc_hs c with HsNever => false | _ => true end).

(** doqclient.go:315-357 getStream. [conn] is the connection there is, [dials] what dialling gives.
    The result is the connection of the stream, if there is one. *)
Definition getStream (conn : option qconn) (dials : list (option qconn)) (replaySafe : bool) : list cevent * option qconn :=
  let start := match conn with
               | Some c => Some ([], c, dials)
               | None => match dials with
                         | Some c :: d => Some ([Dialed c], c, d)
                         | _ => None
                         end
               end in
  match start with
  | None => ([], None)
  | Some (ev, c, dials) =>
      let ev := ev ++ awaitReplaySafe replaySafe c in
      if openStream replaySafe c then (ev ++ [Opened c], Some c) else
      match dials with
      | Some c' :: _ =>
          let ev := ev ++ [Dialed c'] ++ awaitReplaySafe replaySafe c' in
          if openStream replaySafe c' then (ev ++ [Opened c'], Some c') else (ev, None)
      | _ => (ev, None)
      end
  end.

Section Doq.
Variable unpack : bytes -> option msg.
Variable pack : msg -> option bytes.
(** The octets a stream of the connection returns before its end or the deadline; None: writing
    the query fails *)
Variable answer : qconn -> bytes -> option bytes.

(** doqclient.go:149-182 the query that is sent *)
Definition doq_query (q : msg) : msg :=
  let qc := set_id 0 q in
  match is_edns0 qc with
  | None => qc
  | Some o => update_edns0 (opt_set_options (filter (fun x => negb (N.eqb (opt_code x) 11)) (opt_options o))) qc
  end.

(** doqclient.go:149-264 Resolve. For dual-stack clients [conn] is the connection of the family of
    the endpoint. *)
Definition doq_resolve (conn : option qconn) (dials : list (option qconn)) (q : msg) : list cevent * result :=
  let qc := doq_query q in
  match pack qc with
  | None => ([], Err "pack")
  | Some p =>
      let b := frame p in
      let '(ev, stream) := getStream conn dials (isReplayableOpcode (m_opcode qc)) in
      match stream with
      | None => (ev, Err "getstream")
      | Some c =>
          let ev := ev ++ [Wrote c b] in
          match answer c b with
          | None => (ev, Err "write")
          | Some data =>
              match read_frame data with
              | None => (ev, Err "read")
              | Some r =>
                  match unpack r with
                  | None => (ev, Err "unpack")
                  | Some a =>
                      let a := set_id (m_id q) a in
                      if negb (validateResponseQuestion q a) then (ev, Err "question")
                      else if has_keepalive a then (ev, Err "keepalive")
                      else (ev, Ans a)
                  end
              end
          end
      end
  end.
End Doq.

(** *** Plain and TLS clients: what goes to the pipeline *)
(** dnsclient.go:78-92 Resolve *)
Definition dns_query (size : N) (q : msg) : msg := stripPadding (setUDPSize q size).
(** dtlsclient.go:110-127 Resolve; dotclient.go is the same without the size *)
Definition tls_query (base : msg -> N) (optlen : edns0 -> N) (size : N) (q : msg) : option msg := padQuery base optlen (setUDPSize q size).
