(** The counters of listeners, groups, routers and modifiers: vars.go, listener.go:43-62, and where the code adds to them. Each function here
    has the additions of one call, next to the model of the call it belongs to. The Add of expvar is atomic, so that the value of a
    counter is the number of additions, in whatever order they are made. The counters of clients are in CMetrics_model. Not modelled: the gauge of cache entries
    and that of round-trip times, negative values and wrap-around of 64 bits. *)
From Verif Require Import Base Bytes Dns Net Cidr_model Modifiers_model Lists_model.
From Verif Require Blocklist_model Dns64_model RateLimit_model Router_model Cache_model Listener_model Groups_model Dnssec_model Lru_model Blob_model.
Local Open Scope string_scope.
Local Open Scope bool_scope.

(** One addition of one: the counter, and the key in it if it is an expvar.Map *)
Definition bump := (string * string)%type.
Definition int (name : string) : bump := (name, "").
Definition err (key : string) : bump := ("error", key).

(** ** Listeners *)
Section Listeners.
Import Listener_model.
Variable resolve : msg -> client -> result.
Variable base : msg -> N.
Variable optlen : edns0 -> N.
Variable truncate : N -> msg -> msg.
Variable unpack : bytes -> option msg.
Variable pack : msg -> option bytes.
Variable base64dec : string -> option bytes.
Variable splitHost : string -> string.
Variable parseIP : string -> bytes.
(** message.go:63-68 rCode *)
Variable rCode : N -> string.
Definition response (a : msg) : bump := ("response", rCode (m_rcode a)).

(** dnslistener.go:109-158 *)
Definition listen_bumps (id protocol : string) (allowedNet : list ipnet) (src : bytes) (tlsname : string) (req : msg) : list bump :=
  match m_question req with
  | [] => [err "noquestion"]
  | _ =>
      let ci := Client src "" tlsname id in
      let '(e, a) :=
        if isAllowed allowedNet src
        then match resolve req ci with Ans a => ([], Some a) | Drop => ([], None) | Err _ => ([err "resolve"], Some (servfail req)) end
        else ([err "acl"], Some (set_rcode empty_msg req RcodeRefused)) in
      int "query" :: e ++
      match a with
      | None => [int "drop"]
      | Some a =>
          match (if String.eqb protocol "dot" || String.eqb protocol "dtls" then padAnswer base optlen req a else Some (stripPadding a)) with
          | None => []
          | Some a =>
              [response (if String.eqb protocol "udp" || String.eqb protocol "dtls"
                         then truncate (match is_edns0 req with Some o => opt_udpsize o | None => 512%N end) a else a)]
          end
      end
  end.

(** dohlistener.go:314-395 parseAndRespond *)
Definition parse_bumps (o : dohopt) (b : bytes) (r : httpreq) : list bump :=
  int "query" ::
  match unpack b with
  | None => [err "unpack"]
  | Some q =>
      match m_question q with
      | [] => [err "noquestion"]
      | _ =>
          if (match h_tls r with Some (done, _) => negb done | None => false end) && negb (isReplayableOpcode (m_opcode q)) then [err "tooearly"] else
          let clientIP := extractClientAddress splitHost parseIP (do_proxy o) r in
          if is_nil clientIP then [err "remoteaddr"] else
          let ci := Client clientIP (h_path r) (match h_tls r with Some (_, n) => n | None => "" end) (do_id o) in
          let a :=
            if isAllowed (do_allowed o) clientIP
            then match resolve q ci with Ans a => Some a | Drop => None | Err _ => Some (set_rcode empty_msg q RcodeServerFailure) end
            else Some (set_rcode empty_msg q RcodeRefused) in
          match a with
          | None => [int "drop"]
          | Some a =>
              match padAnswer base optlen q a with
              | None => []
              | Some a => response a :: match pack a with None => [err "pack"] | Some _ => [] end
              end
          end
      end
  end.
(** dohlistener.go:215-264 dohHandler, getHandler, postHandler *)
Definition doh_bumps (o : dohopt) (r : httpreq) : list bump :=
  if String.eqb (h_method r) "GET" then
    int "get" :: match h_dns r with
                 | [] => []
                 | s :: _ => match base64dec s with None => [] | Some b => parse_bumps o b r end
                 end
  else if String.eqb (h_method r) "POST" then
    int "post" :: match read_max maxDoHRequestSize r with
                  | RTooLarge => [err "toolarge"]
                  | RError => []
                  | RData b => parse_bumps o b r
                  end
  else [err "httpmethod"].

(** doqlistener.go:185-290 handleStream. [sent]: Write had no error. *)
Definition stream_bumps (ci : client) (hs : handshake) (sent : bool) (data : bytes) : list bump :=
  int "stream" ::
  match read_frame data with
  | None => [err "read"]
  | Some b =>
      match unpack b with
      | None => [err "unpack"]
      | Some q =>
          match m_question q with
          | [] => [err "noquestion"]
          | _ =>
              int "query" ::
              if has_keepalive q then [err "keepalive"] else
              if negb (isReplayableOpcode (m_opcode q)) && (match hs with HsNever => true | _ => false end) then [err "tooearly"] else
              match resolve q ci with
              | Drop => []                                  (* Pack of nil *)
              | r => let a := match r with Ans a => a | _ => set_rcode empty_msg q RcodeServerFailure end in
                     match pack a with
                     | None => [err "encode"]
                     | Some _ => (if sent then [] else [err "send"]) ++ [response a]
                     end
              end
          end
      end
  end.
(** doqlistener.go:163-183 handleConnection *)
Definition connection_bumps (id : string) (allowedNet : list ipnet) (src : bytes) (tlsname : string) (streams : list (handshake * bool * bytes)) : list bump :=
  if isAllowed allowedNet src
  then int "session" :: flat_map (fun '(hs, sent, data) => stream_bumps (Client src "" tlsname id) hs sent data) streams
  else [int "drop"].
End Listeners.

(** ** Blocklists *)
(** blocklist.go:99-129; a panic of Match, or of match.List before the addition, has none *)
Definition block_bumps (allowDB : option (msg -> option mres)) (blockDB : msg -> option mres) (q : msg) : list bump :=
  match m_question q with
  | [] => []
  | _ =>
      let rest := match blockDB q with
        | None => []
        | Some r => if negb (mr_ok r) then [int "allow"] else match mr_match r with None => [] | Some _ => [int "deny"] end
        end in
      match allowDB with
      | None => rest
      | Some db => match db q with
                   | None => []
                   | Some r => if mr_ok r then match mr_match r with None => [] | Some _ => [int "allow"] end else rest
                   end
      end
  end.
(** client-blocklist.go:77-102 *)
Definition client_bumps (db : bytes -> option (string * string)) (useECS : bool) (q : msg) (ci : client) : list bump :=
  match Blocklist_model.client_ip useECS q ci with
  | [] => [int "allow"]
  | ip => match db ip with Some _ => [int "deny"] | None => [int "allow"] end
  end.

(** ** Modifiers *)
(** dns64.go:71-136 *)
Definition dns64_bumps (prefixes : list Dns64_model.d64prefix) (resolve : msg -> result) (q : msg) : list bump :=
  match m_question q with
  | [] => []
  | x :: _ =>
      if negb (N.eqb (q_type x) TypeAAAA) then [int "passthru"]
      else if match is_edns0 q with Some o => opt_do o | None => false end then [int "passthru"]
      else
        int "query" ::
        match resolve q with
        | Err e => [int "err"]
        | Drop => []
        | Ans answer =>
            if negb (N.eqb (m_rcode answer) RcodeSuccess) then [int "passthru"]
            else if Dns64_model.hasAAAARecords answer then [int "passthru"]
            else
              match resolve (Dns64_model.a_query q) with
              | Err _ => [int "err"]
              | Drop => [int "passthru"]
              | Ans aAnswer =>
                  if negb (N.eqb (m_rcode aAnswer) RcodeSuccess) then [int "passthru"]
                  else match Dns64_model.synthesizeAAAA prefixes aAnswer x with [] => [int "passthru"] | _ => [int "synth"] end
              end
        end
  end.
(** rate-limiter.go:69-115 *)
Definition rate_bumps (ipString : bytes -> string) (o : RateLimit_model.rl_opts) (limit : bool) (source : bytes) (now : Z) (s : RateLimit_model.rl_state) : list bump :=
  int "query" ::
  match RateLimit_model.rl_count o (RateLimit_model.rl_key ipString o source) (RateLimit_model.rl_window_id o now) s with
  | None => []
  | Some (_, reject) => if reject then int "exceed" :: (if limit then [] else [int "drop"]) else []
  end.
Fixpoint rate_all (ipString : bytes -> string) (o : RateLimit_model.rl_opts) (limit : bool) (h : list (Z * bytes)) (s : RateLimit_model.rl_state) : list bump :=
  match h with
  | [] => []
  | (now, source) :: h' => rate_bumps ipString o limit source now s ++ rate_all ipString o limit h' (fst (RateLimit_model.rl_resolve ipString o limit source now s))
  end.
(** cache.go:204-265, for one call that finds the cache as it is; a panic of the lookup has none *)
Definition cache_bumps (ipString : bytes -> string) (unpack : bytes -> option msg) (hash : Blob_model.lruKey -> N) (o : Cache_model.options) (shuffle : msg -> msg)
    (q : msg) (now : Z) (c : Lru_model.lru bytes) : list bump :=
  if Nat.ltb 1 (length (m_question q)) then []
  else if negb (String.eqb (Cache_model.o_flush o) "") && (match m_question q with x :: _ => String.eqb (Cache_model.o_flush o) (q_name x) | [] => false end) then []
  else match Cache_model.answerFromCache ipString unpack hash o shuffle q now c with
       | None => []
       | Some (_, Some _) => [int "hit"]
       | Some (_, None) => [int "miss"]
       end.

(** ** DNSSEC: dnssec.go:101-152 with its additions at lines 139 and 148 *)
Section Validator.
Import Dnssec_model.
Variable verify : rr -> rr -> list rr -> bool.
Variable keyTag : rr -> N.
Variable toDS : rr -> N -> option string.
Variable hashName : string -> N -> N -> string -> string.
Definition after_bumps (logOnly : bool) (q a : msg) (qtype : N) : prog (result * list bump) :=
  let strip m := stripDNSSEC m (set_do q) (had_edns0 q) qtype in
  if negb (N.eqb (m_rcode a) RcodeSuccess) && negb (N.eqb (m_rcode a) RcodeNameError) then Ret (Ans (strip a), [])
  else bind (validate verify keyTag toDS hashName a) (fun e =>
       match e with
       | None => Ret (Ans (strip (set_ad true a)), [int "validation-success"])
       | Some Insecure => Ret (Ans (strip a), [])
       | Some Bogus => if negb logOnly then Ret (Ans (servfail q), [int "validation-failure"]) else Ret (Ans (strip a), [int "validation-failure"])
       end).
Definition validate_bumps (logOnly : bool) (q : msg) : prog (result * list bump) :=
  match m_question q with
  | [] => Panic
  | qu :: _ => Ask (upstream_query q) (fun res => match res with Ans a => after_bumps logOnly q a (q_type qu) | other => Ret (other, []) end)
  end.
End Validator.

(** ** Routers and groups. [name i] is the String of resolver i. *)
Section Groups.
Import Groups_model.
Variable name : nat -> string.
Definition route (i : nat) : bump := ("route", name i).
Definition failure (i : nat) : bump := ("failure", name i).
Definition is_err (r : result) : bool := match r with Err _ => true | _ => false end.

(** router.go:48-66 *)
Fixpoint router_from (resolve : nat -> msg -> client -> result) (now : nat -> Router_model.localtime) (i : nat) (routes : list Router_model.route) (q : msg) (ci : client) : list bump :=
  match routes with
  | [] => []
  | r :: rest =>
      match Router_model.route_match r (now i) q ci with
      | None => []
      | Some false => router_from resolve now (S i) rest q ci
      | Some true => route (Router_model.r_resolver r) :: if is_err (resolve (Router_model.r_resolver r) q ci) then [failure (Router_model.r_resolver r)] else []
      end
  end.
Definition router_bumps resolve now (routes : list Router_model.route) (q : msg) (ci : client) : list bump :=
  match m_question q with [] => [] | _ => router_from resolve now 0 routes q ci end.
(** router.go:71-77 Add, once for every route by main.go:1105; the gauge is set to 0 by NewRouter (router.go:40-45) *)
Definition router_available (routes : list Router_model.route) : Z := fold_left (fun z _ => (z + 1)%Z) routes 0%Z.

(** The steps of a group with their additions: roundrobin.go:36-41, failrotate.go:59-66 and 94 *)
Definition rr_bumps (s : group) (e : gevent) : list bump :=
  match e with
  | Sent t i => [route i]
  | Reply t r => match g_pc s t with Waiting _ i => if is_err r then [failure i] else [] | _ => [] end
  | _ => []
  end.
Definition fr_bumps (good : result -> bool) (s : group) (e : gevent) : list bump :=
  match e with
  | Sent t i => [route i]
  | Reply t r => match g_pc s t with Waiting _ i => if good r then [] else [failure i] | _ => [] end
  | Failed t => match g_pc s t with Bad _ i _ => if Nat.eqb i (g_active s) then [int "failover"] else [] | _ => [] end
  | _ => []
  end.
(** failback.go:87-96, 121-146 *)
Definition fb_bumps (good : result -> bool) (resetAfter : Z) (s : fb) (e : gevent) : list bump :=
  match e with
  | Sent t i => [route i]
  | Reply t r => match fb_pc s t with Waiting _ i => if good r then [] else [failure i] | _ => [] end
  | Failed t => match fb_pc s t with Bad _ i _ => if (resetAfter =? 0)%Z || negb (Nat.eqb i (fb_active s)) then [] else [int "failover"] | _ => [] end
  | _ => []
  end.
(** The gauge: failback.go:55, 140, 164; [s'] is the state after the step *)
Definition fb_gauge (n : nat) (resetAfter : Z) (s s' : fb) (e : gevent) (z : Z) : Z :=
  match e with
  | Failed t => match fb_pc s t with
                | Bad _ i _ => if (resetAfter =? 0)%Z || negb (Nat.eqb i (fb_active s)) then z else (Z.of_nat n - Z.of_nat (fb_active s'))%Z
                | _ => z
                end
  | TimerFire => Z.of_nat n
  | _ => z
  end.
(** random.go:59-68, 77-87 pick, which counts each pick as a failover *)
Definition rnd_bumps (good : result -> bool) (s : rnd) (e : gevent) : list bump :=
  match e with
  | Sent t i => [int "failover"; route i]
  | NoneLeft t => [int "failover"]
  | Reply t r => match r_pc s t with Waiting _ i => if good r then [] else [failure i] | _ => [] end
  | _ => []
  end.
(** The gauge: failback.go:55 at first, random.go:81 before each pick, random.go:119 *)
Definition rnd_gauge (s s' : rnd) (e : gevent) (z : Z) : Z :=
  match e with
  | Sent _ _ | NoneLeft _ => Z.of_nat (length (r_active s))
  | Reactivate _ => Z.of_nat (length (r_active s'))
  | _ => z
  end.
(** An execution with its additions and its gauge *)
Section Exec.
Context {S : Type} (step : S -> gevent -> option S) (bumps : S -> gevent -> list bump) (gauge : S -> S -> gevent -> Z -> Z).
Fixpoint exec_bumps (s : S) (l : list gevent) : list bump :=
  match l with
  | [] => []
  | e :: l' => match step s e with None => [] | Some s' => bumps s e ++ exec_bumps s' l' end
  end.
Fixpoint exec_gauge (s : S) (l : list gevent) (z : Z) : Z :=
  match l with
  | [] => z
  | e :: l' => match step s e with None => z | Some s' => exec_gauge s' l' (gauge s s' e z) end
  end.
End Exec.
(** loadbalance.go:118-147 *)
Fixpoint lb_from (good : result -> bool) (picks : nat -> list nat -> nat) (up : nat -> nat -> result) (fuel k : nat) (remaining : list nat) : list bump :=
  match remaining, fuel with
  | [], _ => []
  | _, O => []
  | _, S fuel' =>
      let pos := picks k remaining in
      match nth_error remaining pos with
      | None => []
      | Some idx => route idx :: if good (up k idx) then [] else failure idx :: int "failover" :: lb_from good picks up fuel' (S k) (swap_remove pos remaining)
      end
  end.
Definition lb_bumps good picks up (n : nat) : list bump := lb_from good picks up n 0 (seq 0 n).
End Groups.

(** ** Names: vars.go *)
Inductive kind := KInt | KMap.
(** fmt.Sprintf("routedns.%s.%s.%s", base, id, name) *)
Definition fullname (base id name : string) : string := "routedns." ++ base ++ "." ++ id ++ "." ++ name.
(** The variables of package expvar *)
Definition registry := list (string * kind).
Fixpoint lookup (n : string) (r : registry) : option kind :=
  match r with [] => None | (m, k) :: r' => if String.eqb m n then Some k else lookup n r' end.
Definition same_kind (a b : kind) : bool := match a, b with KInt, KInt | KMap, KMap => true | _, _ => false end.
(** vars.go:9-24 getVarInt, getVarMap; None: the type assertion panics. Publish panics if the name is there already. *)
Definition getVar (k : kind) (base id name : string) (r : registry) : option registry :=
  match lookup (fullname base id name) r with
  | Some k' => if same_kind k' k then Some r else None
  | None => Some ((fullname base id name, k) :: r)
  end.
(** What a constructor asks for *)
Inductive counted :=
| CClient | CDNSListener | CDoHListener | CDoQListener | CRouter | CRoundRobin | CFail | CLoadBalance | CBlocklist | CRateLimiter | CCache | CRedis | CDNSSEC | CDNS64.
Definition vars (c : counted) (id : string) : list (kind * string * string * string) :=
  match c with
  | CClient => [(KInt, "client", id, "query"); (KMap, "client", id, "response"); (KInt, "client", id, "drop"); (KMap, "client", id, "error"); (KInt, "client", id, "maxqueue")]   (* listener.go:54-62; pipeline.go:47, dohclient.go:175, doqclient.go:111 *)
  | CDNSListener => [(KInt, "listener", id, "query"); (KMap, "listener", id, "response"); (KInt, "listener", id, "drop"); (KMap, "listener", id, "error"); (KInt, "listener", id, "maxqueue")]   (* listener.go:54-62; dnslistener.go:85 *)
  | CDoHListener => [(KInt, "listener", id, "query"); (KMap, "listener", id, "response"); (KMap, "listener", id, "error"); (KInt, "listener", id, "drop"); (KInt, "listener", id, "get"); (KInt, "listener", id, "post")]   (* dohlistener.go:79-90 *)
  | CDoQListener => [(KInt, "listener", id, "query"); (KMap, "listener", id, "response"); (KInt, "listener", id, "drop"); (KMap, "listener", id, "error"); (KInt, "listener", id, "session"); (KInt, "listener", id, "stream")]   (* doqlistener.go:52-63 *)
  | CRouter | CRoundRobin => [(KInt, "router", id, "available"); (KMap, "router", id, "route"); (KMap, "router", id, "failure")]   (* router.go:28-36 *)
  | CFail => [(KInt, "router", id, "available"); (KMap, "router", id, "route"); (KMap, "router", id, "failure"); (KInt, "router", id, "failover")]   (* failback.go:53-64 *)
  | CLoadBalance => [(KMap, "router", id, "rtt"); (KInt, "router", id, "available"); (KMap, "router", id, "route"); (KMap, "router", id, "failure"); (KInt, "router", id, "failover")]   (* loadbalance.go:84-96 *)
  | CBlocklist => [(KInt, "router", id, "allow"); (KInt, "router", id, "deny")]   (* blocklist.go:62-67 *)
  | CRateLimiter => [(KInt, "router", id, "query"); (KInt, "router", id, "exceed"); (KInt, "router", id, "drop")]   (* rate-limiter.go:59-63 *)
  | CCache => [(KInt, "cache", id, "hit"); (KInt, "cache", id, "miss"); (KInt, "cache", id, "entries")]   (* cache.go:173-177 *)
  | CRedis => [(KInt, "cache", "redis", "async-skipped")]   (* cache-redis.go:127 *)
  | CDNSSEC => [(KInt, "dnssec", id, "validation-success"); (KInt, "dnssec", id, "validation-failure")]   (* dnssec.go:93-96 *)
  | CDNS64 => [(KInt, "dns64", id, "query"); (KInt, "dns64", id, "synth"); (KInt, "dns64", id, "passthru"); (KInt, "dns64", id, "err")]   (* dns64.go:60-65 *)
  end.
Fixpoint get_all (l : list (kind * string * string * string)) (r : registry) : option registry :=
  match l with
  | [] => Some r
  | (k, base, id, n) :: l' => match getVar k base id n r with None => None | Some r' => get_all l' r' end
  end.
(** Constructors called one after the other *)
Definition construct (l : list (counted * string)) (r : registry) : option registry := get_all (flat_map (fun x => vars (fst x) (snd x)) l) r.
