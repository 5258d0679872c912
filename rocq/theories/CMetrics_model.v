(** The counters of the upstream clients: where pipeline.go, dohclient.go, odohclient.go and doqclient.go add to them. As in Metrics_model
    each function has the additions of one call, or of one step of a pipeline, next to the model of the call (Client_model) or step
    (Pipeline_model). Not modelled: sharing of variables by clients with the same id. *)
From Verif Require Import Base Bytes Dns Modifiers_model Listener_model Client_model Metrics_model.
From Verif Require Pipeline_model.
Local Open Scope string_scope.
Local Open Scope bool_scope.

Section Clients.
(** message.go:63-68 rCode; strconv of the status in Sprintf("http%d") *)
Variable rCode : N -> string.
Variable decimal : N -> string.
Definition answered (a : msg) : bump := ("response", rCode (m_rcode a)).

Section Http.
Variable base : msg -> N.
Variable optlen : edns0 -> N.
Variable unpack : bytes -> option msg.
Variable pack : msg -> option bytes.
Variable base64 : bytes -> string.
Variable expand : option string -> option string.
Variable http : hreq -> option hresp.
(** No request could be built because of its URL (http.NewRequestWithContext), not because of the template *)
Variable bad_url : bool.

(** dohclient.go:241-286 buildPostRequest, buildGetRequest fail; an unsupported method is not counted *)
Definition build_bumps (o : dohcopt) : list bump :=
  if String.eqb (dc_method o) "POST" || String.eqb (dc_method o) "GET" then [err (if bad_url then "http" else "template")] else [].
(** dohclient.go:298-306 and odohclient.go:111-119: errResponseTooLarge or another error of readBoundedBody *)
Definition read_key (r : hresp) : string :=
  if hr_broken r && Nat.ltb (length (hr_body r)) (maxDoHResponseSize + 1) then "read" else "toolarge".
(** dohclient.go:293-318 responseFromHTTP *)
Definition http_bumps (q : msg) (r : hresp) : list bump :=
  if ((hr_status r <? 200) || (299 <? hr_status r))%N then [err ("http" ++ decimal (hr_status r))]
  else match readBoundedBody maxDoHResponseSize (hr_body r) (hr_broken r) with
  | None => [err (read_key r)]
  | Some b => match unpack b with
              | None => [err "unpack"]
              | Some a => if validateResponseQuestion q a then [answered a] else [err "question"]
              end
  end.
(** dohclient.go:184-219 Resolve, 232-239 do *)
Definition doh_bumps (o : dohcopt) (q : msg) : list bump :=
  match padQuery base optlen q with
  | None => []
  | Some q =>
      match pack q with
      | None => [err "pack"]
      | Some b =>
          int "query" ::
          match buildRequest base64 expand o b (m_opcode q) with
          | None => build_bumps o
          | Some req => match http req with None => [err (hq_method req)] | Some r => http_bumps q r end
          end
      end
  end.

Variable encrypt : bytes -> option bytes.
Variable decrypt : bytes -> option bytes.
Variable config : bool.
Variable with_target : string -> string.
(** The request for the key of the target failed (odohclient.go:199, through do); the octets are no ODoH message (UnmarshalDNSMessage) *)
Variable key_failed : bool.
Variable undecodable : bytes -> bool.
(** odohclient.go:103-141 decodeProxyResponse *)
Definition proxy_bumps (q : msg) (r : hresp) : list bump :=
  if ((hr_status r <? 200) || (299 <? hr_status r))%N then [err ("http" ++ decimal (hr_status r))]
  else if negb (String.eqb (hr_ctype r) "application/oblivious-dns-message") then []
  else match readBoundedBody maxDoHResponseSize (hr_body r) (hr_broken r) with
  | None => [err (read_key r)]
  | Some b => match decrypt b with
              | None => [err (if undecodable b then "decode" else "decrypt")]
              | Some d => match unpack d with
                          | None => [err "unpack"]
                          | Some a => if validateResponseQuestion q a then [answered a] else [err "question"]
                          end
              end
  end.
(** odohclient.go:68-96 Resolve: it has no query counter *)
Definition odoh_bumps (o : dohcopt) (q : msg) : list bump :=
  if negb config then if key_failed then [err "GET"] else [] else
  match pack q with
  | None => []
  | Some b =>
      match encrypt b with
      | None => []
      | Some e =>
          match buildRequest base64 expand o e (m_opcode q) with
          | None => build_bumps o
          | Some req =>
              let req := HReq (hq_method req) (with_target (hq_url req)) (hq_body req) in
              match http req with None => [err (hq_method req)] | Some r => proxy_bumps q r end
          end
      end
  end.
End Http.

Section Doq.
Variable unpack : bytes -> option msg.
Variable pack : msg -> option bytes.
Variable answer : qconn -> bytes -> option bytes.
(** Dual-stack clients: net.ResolveUDPAddr gave an address. *)
Variable resolved : bool.
(** The stream could not be closed, rather than written to *)
Variable close_failed : bool.
(** doqclient.go:149-264 Resolve with dual-stack clients: the address is looked up after packing *)
Definition doq_call (conn : option qconn) (dials : list (option qconn)) (q : msg) : list cevent * result :=
  match pack (doq_query q) with
  | None => ([], Err "pack")
  | Some _ => if resolved then doq_resolve unpack pack answer conn dials q else ([], Err "resolve")
  end.
Definition doq_bumps (conn : option qconn) (dials : list (option qconn)) (q : msg) : list bump :=
  let qc := doq_query q in
  int "query" ::
  match pack qc with
  | None => [err "pack"]
  | Some p =>
      if negb resolved then [err "resolve"] else
      match snd (getStream conn dials (isReplayableOpcode (m_opcode qc))) with
      | None => [err "getstream"]
      | Some c =>
          match answer c (frame p) with
          | None => [err (if close_failed then "close" else "write")]
          | Some data =>
              match read_frame data with
              | None => [err "read"]
              | Some r =>
                  match unpack r with
                  | None => [err "unpack"]
                  | Some a =>
                      if negb (validateResponseQuestion q (set_id (m_id q) a)) then [err "question"]
                      else if has_keepalive a then [err "keepalive"]
                      else [answered a]
                  end
              end
          end
      end
  end.
End Doq.

(** ** Pipelines: the plain, DoT and DTLS clients *)
Section Pipe.
Import Pipeline_model.
(** pipeline.go:144-174: how reading ended on a connection *)
Inductive readend := Idle | ServerTerm | ServerEOF | ReadError.
Variable why : nat -> readend.
Definition end_bumps (r : readend) : list bump :=
  match r with Idle => [] | ServerTerm => [err "server_term"] | ServerEOF => [err "server_eof"] | ReadError => [err "read"] end.
(** The additions of a step in state s. The query counter is added to between inFlight.add and WriteMsg, here with the former. *)
Definition step_bumps (s : pipe) (e : pevent) : list bump :=
  match e with
  | EOfferTimeout _ | EDelete _ => [err "querytimeout"]                        (* pipeline.go:65, 74 *)
  | EDialFail _ => [err "open"]                                                (* 92 *)
  | EAdd _ => if Nat.leb (N.to_nat 65535) (length (inflight s)) then [err "inflight_full"] else [int "query"]   (* 108, 112 *)
  | EGetBack =>
      match writer s with
      | WFail _ id _ => match lookup id (inflight s) with Some _ => [] | None => [err "send_query"] end
      | _ => []
      end
  | EFail => [err "send_query"]                                                (* 124 *)
  | EReadFail => end_bumps (why (conn s))                                      (* 150, 158, 168 *)
  | EGet => match reader s with RGot a => match lookup (m_id a) (inflight s) with Some _ => [] | None => [err "unexpected_a"] end | _ => [] end   (* 179 *)
  | EComplete => match reader s with RMatch _ a => [answered a] | _ => [] end  (* 183 *)
  | _ => []
  end.
Fixpoint pipe_log (s : pipe) (l : list pevent) : list bump :=
  match l with
  | [] => []
  | e :: l' => match pipe_step s e with None => [] | Some s' => step_bumps s e ++ pipe_log s' l' end
  end.
(** inFlightQueue.maxLen (pipeline.go:270-272) and the variable maxqueue (185-188) *)
Definition queue_step (s s' : pipe) (e : pevent) (m : nat * nat) : nat * nat :=
  let (maxLen, gauge) := m in
  match e with
  | EAdd _ => (if Nat.leb (N.to_nat 65535) (length (inflight s)) then maxLen else if Nat.ltb maxLen (length (inflight s')) then length (inflight s') else maxLen, gauge)
  | EComplete => (maxLen, if Nat.ltb gauge maxLen then maxLen else gauge)
  | _ => m
  end.
Fixpoint pipe_queue (s : pipe) (l : list pevent) (m : nat * nat) : nat * nat :=
  match l with
  | [] => m
  | e :: l' => match pipe_step s e with None => m | Some s' => pipe_queue s' l' (queue_step s s' e m) end
  end.
End Pipe.
End Clients.
