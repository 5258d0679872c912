(** C93: what the counters of the admin service show. [shows bumps b f]: for any calls, in whatever order their additions to the counters are
    made, the value of b is the number of calls with property f; the properties are those of the runs of the models of C32, C33, C28 and so on. *)
From Coq Require Import Permutation.
From Verif Require Import Base Bytes Dns Net Cidr_model Lists_model Metrics_model Metrics_spec Metrics_proofs Metrics_proofs2 Metrics_proofs3 Metrics_proofs4 Metrics_proofs5.
From Verif Require Listener_model Blocklist_model Dns64_model RateLimit_model Router_model Cache_model Groups_model Groups_spec Dnssec_model.
From Verif Require Import Cidr_spec Net_spec Listener_spec Conn_spec Metrics_proofs6.
Local Open Scope string_scope.
Local Open Scope bool_scope.
Local Open Scope nat_scope.

(** ** Listeners *)
(** UDP, TCP, DoT, DTLS: queries are the messages with a question; each of them is counted as dropped or as a response with the code that is sent. *)
Theorem C93_dns_listener base optlen truncate rCode id protocol nets :
  let bumps c := listen_bumps (dc_resolve c) base optlen truncate rCode id protocol nets (dc_src c) (dc_tls c) (dc_req c) in
  let run c := Listener_model.listenHandler (dc_resolve c) base optlen truncate id protocol nets (dc_src c) (dc_tls c) (dc_req c) in
  let question c := negb (none (m_question (dc_req c))) in
  shows bumps ("query", "") question /\
  shows bumps ("error", "noquestion") (fun c => negb (question c)) /\
  shows bumps ("error", "acl") (fun c => question c && negb (called (run c))) /\
  shows bumps ("error", "resolve") (fun c => failed (dc_resolve c) (run c)) /\
  shows bumps ("drop", "") (fun c => closed (run c)) /\
  (forall k, shows bumps ("response", k) (fun c => written (fun m => String.eqb k (rCode (m_rcode m))) (run c))) /\
  (forall calls log, Permutation log (flat_map bumps calls) -> named "query" log = named "drop" log + named "response" log + number (fun c => crashed (run c)) calls).
Proof. exact (listener_counts base optlen truncate rCode id protocol nets). Qed.
Print Assumptions C93_dns_listener.

(** DoH: queries are the requests that have octets for the DNS parser, and each of them is counted once more. *)
Theorem C93_doh_listener base optlen unpack pack base64dec splitHost parseIP rCode o :
  let bumps c := doh_bumps (hc_resolve c) base optlen unpack pack base64dec splitHost parseIP rCode o (hc_req c) in
  let run c := Listener_model.dohHandler (hc_resolve c) base optlen unpack pack base64dec splitHost parseIP o (hc_req c) in
  let message c := doh_message base64dec (hc_req c) in
  shows bumps ("get", "") (fun c => String.eqb (Listener_model.h_method (hc_req c)) "GET") /\
  shows bumps ("post", "") (fun c => String.eqb (Listener_model.h_method (hc_req c)) "POST") /\
  shows bumps ("error", "httpmethod") (fun c => status 405 (run c)) /\
  shows bumps ("error", "toolarge") (fun c => status 413 (run c)) /\
  shows bumps ("query", "") (fun c => match message c with Some _ => true | None => false end) /\
  shows bumps ("error", "unpack") (fun c => garbled unpack (message c)) /\
  shows bumps ("error", "noquestion") (fun c => empty unpack (message c)) /\
  shows bumps ("error", "tooearly") (fun c => status 425 (run c)) /\
  shows bumps ("error", "remoteaddr") (fun c => asks unpack (message c) && status 400 (run c)) /\
  shows bumps ("drop", "") (fun c => status 403 (run c)) /\
  shows bumps ("error", "pack") (fun c => status 500 (run c)) /\
  (forall k, shows bumps ("response", k) (fun c => (body (run c) || status 500 (run c)) && String.eqb k (rCode (reply_code (hc_resolve c) (run c))))) /\
  (forall calls log, Permutation log (flat_map bumps calls) ->
     times ("query", "") log = times ("error", "unpack") log + times ("error", "noquestion") log + times ("error", "tooearly") log + times ("error", "remoteaddr") log +
       times ("drop", "") log + named "response" log + number (fun c => crashed (run c)) calls) /\
  (* unlike above, failures of the resolver and refused clients are not counted as errors *)
  shows bumps ("error", "resolve") (fun _ => false) /\ shows bumps ("error", "acl") (fun _ => false).
Proof. exact (doh_counts base optlen unpack pack base64dec splitHost parseIP rCode o). Qed.
Print Assumptions C93_doh_listener.

(** DoQ: every stream is counted once more, and every query. *)
Theorem C93_doq_listener unpack pack rCode :
  let bumps c := stream_bumps (qc_resolve c) unpack pack rCode (qc_client c) (qc_hs c) (qc_sent c) (qc_data c) in
  let run c := Listener_model.handleStream (qc_resolve c) unpack pack (qc_client c) (qc_hs c) (qc_data c) in
  let message c := Listener_model.read_frame (qc_data c) in
  shows bumps ("stream", "") (fun _ => true) /\
  shows bumps ("error", "read") (fun c => match message c with None => true | Some _ => false end) /\
  shows bumps ("error", "unpack") (fun c => garbled unpack (message c)) /\
  shows bumps ("error", "noquestion") (fun c => empty unpack (message c)) /\
  shows bumps ("query", "") (fun c => asks unpack (message c)) /\
  shows bumps ("error", "encode") (fun c => called (run c) && match snd (run c) with Listener_model.Silent => true | _ => false end) /\
  shows bumps ("error", "send") (fun c => body (run c) && negb (qc_sent c)) /\
  (forall k, shows bumps ("response", k) (fun c => body (run c) && String.eqb k (rCode (reply_code (qc_resolve c) (run c))))) /\
  shows bumps ("error", "keepalive") (fun c => match message c with Some b => match unpack b with Some q => negb (none (m_question q)) && Listener_model.has_keepalive q | None => false end | None => false end) /\
  (forall calls log, Permutation log (flat_map bumps calls) ->
     times ("error", "keepalive") log + times ("error", "tooearly") log = number (fun c => asks unpack (message c) && negb (called (run c))) calls /\
     times ("stream", "") log = times ("error", "read") log + times ("error", "unpack") log + times ("error", "noquestion") log + times ("query", "") log /\
     times ("query", "") log = times ("error", "keepalive") log + times ("error", "tooearly") log + times ("error", "encode") log + named "response" log + number (fun c => crashed (run c)) calls).
Proof. exact (doq_counts unpack pack rCode). Qed.
Print Assumptions C93_doq_listener.
(** Connections: sessions are those from the allowed networks, drops are all others. Of the latter nothing else is counted; of the former,
    what C93_doq_listener says of their streams. *)
Theorem C93_doq_connection unpack pack rCode parseAddr : parse_ok parseAddr -> forall id nets l, Listener_model.parseCIDRList parseAddr nets = Some l ->
  let bumps c := stream_bumps (qc_resolve c) unpack pack rCode (qc_client c) (qc_hs c) (qc_sent c) (qc_data c) in
  forall conns : list (bool * doqconn),
  (forall b c, In (b, c) conns -> (cn_src c = [] \/ ip_ok (cn_src c)) /\ (b = true <-> allowed parseAddr nets (cn_src c))) ->
  forall log, Permutation log (flat_map (fun bc => let c := snd bc in connection_bumps (cn_resolve c) unpack pack rCode id l (cn_src c) (cn_tls c) (cn_streams c)) conns) ->
  let admitted := map snd (filter fst conns) in
  times ("session", "") log = length admitted /\
  times ("drop", "") log + length admitted = length conns /\
  forall b, fst b <> "session" -> fst b <> "drop" -> times b log = times b (flat_map bumps (flat_map (stream_calls id) admitted)).
Proof. exact (connection_counts unpack pack rCode parseAddr). Qed.
Print Assumptions C93_doq_connection.

(** ** Blocklists: allowed are the queries sent on to the upstream or allowlist resolver, denied all others *)
Theorem C93_blocklist resolve allowDB blockDB hasAllow hasBlock t q ci :
  let r := Blocklist_model.blocklist_resolve resolve allowDB blockDB hasAllow hasBlock t q ci in
  r <> None ->
  times ("allow", "") (block_bumps allowDB blockDB q) = one (to_upstream r) /\
  times ("deny", "") (block_bumps allowDB blockDB q) = one (to_block r).
Proof. exact (block_count resolve allowDB blockDB hasAllow hasBlock t q ci). Qed.
Print Assumptions C93_blocklist.
Theorem C93_client_blocklist resolve db useECS hasBlock q ci :
  let r := Some (Blocklist_model.client_resolve resolve db useECS hasBlock q ci) in
  times ("allow", "") (client_bumps db useECS q ci) = one (to_upstream r) /\
  times ("deny", "") (client_bumps db useECS q ci) = one (to_block r).
Proof. exact (client_count resolve db useECS hasBlock q ci). Qed.
Print Assumptions C93_client_blocklist.

(** ** Cache: a hit is answered whatever upstream says, a miss is answered by upstream *)
Theorem C93_cache ipString pack unpack hash o shuffle q now c :
  let run := Cache_model.resolve ipString pack unpack hash o shuffle q now in
  (exists later, run later Drop c <> None) ->
  let l := cache_bumps ipString unpack hash o shuffle q now c in
  times ("hit", "") l + times ("miss", "") l = one (cacheable o q) /\
  (times ("hit", "") l = 1 -> exists a c', forall up later, run later up c = Some (c', Ans a)) /\
  (times ("miss", "") l = 1 -> forall up later c' r, run later up c = Some (c', r) -> r = up).
Proof. exact (cache_count ipString pack unpack hash o shuffle q now c). Qed.
Print Assumptions C93_cache.

(** ** DNS64: queries are those that may be translated; synth those that were, err those that upstream failed *)
Theorem C93_dns64 prefixes resolve q : m_question q <> [] ->
  let r := Dns64_model.dns64_resolve prefixes resolve q in let l := dns64_bumps prefixes resolve q in
  times ("query", "") l = one (d64_applies q) /\
  times ("err", "") l = one (d64_applies q && d64_failed resolve r) /\
  times ("synth", "") l = one (d64_applies q && d64_made resolve q r) /\
  times ("passthru", "") l + times ("err", "") l + times ("synth", "") l = one (negb (d64_applies q && match resolve q with Drop => true | _ => false end)).
Proof. exact (d64_count prefixes resolve q). Qed.
Print Assumptions C93_dns64.

(** ** Rate limiter *)
Theorem C93_rate_limiter ipString o limit h s :
  let l := rate_all ipString o limit h s in let out := RateLimit_model.rl_run ipString o limit h s in
  times ("query", "") l = length out /\ times ("exceed", "") l = number over out /\ times ("drop", "") l = number dropped out /\ length out = length h.
Proof. exact (rate_count ipString o limit h s). Qed.
Print Assumptions C93_rate_limiter.

(** ** Validator: a success is an answer with AD that was validated; a failure is bogus; neither is an error, another code or an insecure answer *)
Theorem C93_validator verify keyTag toDS hashName logOnly q r l :
  yields (validate_bumps verify keyTag toDS hashName logOnly q) (r, l) ->
  yields (Dnssec_model.resolve verify keyTag toDS hashName logOnly q) r /\
  times ("validation-success", "") l + times ("validation-failure", "") l <= 1 /\
  (times ("validation-success", "") l = 1 -> exists a b, yields (Dnssec_model.validate verify keyTag toDS hashName a) None /\ r = Ans b /\ m_ad b = true) /\
  (times ("validation-failure", "") l = 1 -> exists a, yields (Dnssec_model.validate verify keyTag toDS hashName a) (Some Dnssec_model.Bogus) /\ (logOnly = false -> r = Ans (servfail q))) /\
  (times ("validation-success", "") l = 0 -> times ("validation-failure", "") l = 0 ->
     r = Drop \/ (exists e, r = Err e) \/
     exists a b, r = Ans b /\ m_ad b = m_ad a /\ (m_rcode a <> RcodeSuccess /\ m_rcode a <> RcodeNameError \/ yields (Dnssec_model.validate verify keyTag toDS hashName a) (Some Dnssec_model.Insecure))).
Proof. exact (val_counts verify keyTag toDS hashName logOnly q r l). Qed.
Print Assumptions C93_validator.
Theorem C93_validator_runs verify keyTag toDS hashName logOnly q r :
  yields (Dnssec_model.resolve verify keyTag toDS hashName logOnly q) r -> exists l, yields (validate_bumps verify keyTag toDS hashName logOnly q) (r, l).
Proof. exact (val_counted verify keyTag toDS hashName logOnly q r). Qed.
Print Assumptions C93_validator_runs.

(** ** Router: each query that was sent on, and each that failed there, under the name of the resolver *)
Theorem C93_router name resolve now routes q ci calls r : Router_model.router_resolve resolve now routes q ci = Some (calls, r) ->
  (forall k, times ("route", k) (router_bumps name resolve now routes q ci) = number (fun c => String.eqb k (name (fst c))) calls /\
             times ("failure", k) (router_bumps name resolve now routes q ci) = number (fun c => String.eqb k (name (fst c)) && is_err (resolve (fst c) q ci)) calls) /\
  router_available routes = Z.of_nat (length routes).
Proof. exact (router_counts name resolve now routes q ci calls r). Qed.
Print Assumptions C93_router.

(** ** Groups, for every interleaving of the calls: route and failure are the queries sent to a resolver and its bad replies *)
Theorem C93_round_robin name n l s : Groups_model.exec (Groups_model.rr_step n) Groups_model.g_init l = Some s -> forall k,
  let log := exec_bumps (Groups_model.rr_step n) (rr_bumps name) Groups_model.g_init l in
  times ("route", k) log = number (fun i => String.eqb k (name i)) (Groups_spec.sents l) /\
  times ("failure", k) log = number (fun i => String.eqb k (name i)) (blamed is_err [] l).
Proof. exact (rr_count name n l s). Qed.
Print Assumptions C93_round_robin.
(** Fail-rotate: the number of failovers tells who is asked next. *)
Theorem C93_fail_rotate name n good l s : Groups_model.exec (Groups_model.fr_step n good) Groups_model.g_init l = Some s ->
  let log := exec_bumps (Groups_model.fr_step n good) (fr_bumps name good) Groups_model.g_init l in
  (forall k, times ("route", k) log = number (fun i => String.eqb k (name i)) (Groups_spec.sents l) /\
             times ("failure", k) log = number (fun i => String.eqb k (name i)) (blamed (fun r => negb (good r)) [] l)) /\
  (forall t i s', 0 < n -> Groups_model.fr_step n good s (Groups_model.Sent t i) = Some s' -> i = times ("failover", "") log mod n).
Proof. exact (rotate_counts name n good l s). Qed.
Print Assumptions C93_fail_rotate.
(** Fail-back: the gauge is the number of resolvers from the next one on, and always all of them if each query starts over. *)
Theorem C93_fail_back name n good resetAfter l s : Groups_model.exec (Groups_model.fb_step n good resetAfter) Groups_model.fb_init l = Some s ->
  let log := exec_bumps (Groups_model.fb_step n good resetAfter) (fb_bumps name good resetAfter) Groups_model.fb_init l in
  let available := exec_gauge (Groups_model.fb_step n good resetAfter) (fb_gauge n resetAfter) Groups_model.fb_init l (Z.of_nat n) in
  (forall k, times ("route", k) log = number (fun i => String.eqb k (name i)) (Groups_spec.sents l) /\
             times ("failure", k) log = number (fun i => String.eqb k (name i)) (blamed (fun r => negb (good r)) [] l)) /\
  (resetAfter <> 0%Z -> 0 < n -> forall t i s', Groups_model.fb_step n good resetAfter s (Groups_model.Sent t i) = Some s' -> available = (Z.of_nat n - Z.of_nat i)%Z /\ i < n) /\
  (resetAfter = 0%Z -> available = Z.of_nat n /\ times ("failover", "") log = 0).
Proof. exact (back_counts name n good resetAfter l s). Qed.
Print Assumptions C93_fail_back.
(** The failovers since the last reset tell who is asked next. *)
Theorem C93_fail_back_failover name n good resetAfter l1 l2 s t i s' : 0 < n -> resetAfter <> 0%Z ->
  (l1 = [] \/ exists l0, l1 = (l0 ++ [Groups_model.TimerFire])%list) -> Forall (fun e => e <> Groups_model.TimerFire) l2 ->
  let step := Groups_model.fb_step n good resetAfter in let log l := exec_bumps step (fb_bumps name good resetAfter) Groups_model.fb_init l in
  Groups_model.exec step Groups_model.fb_init (l1 ++ l2)%list = Some s -> step s (Groups_model.Sent t i) = Some s' ->
  i = (times ("failover", "") (log (l1 ++ l2)%list) - times ("failover", "") (log l1)) mod n.
Proof. exact (fb_failover name n good resetAfter l1 l2 s t i s'). Qed.
Print Assumptions C93_fail_back_failover.
(** Random: failover counts the picks, also the first of a query; the gauge never shows too few. *)
Theorem C93_random name good resolvers l s : Groups_model.exec (Groups_model.rnd_step good) (Groups_model.rnd_init resolvers) l = Some s ->
  let log := exec_bumps (Groups_model.rnd_step good) (rnd_bumps name good) (Groups_model.rnd_init resolvers) l in
  let available := exec_gauge (Groups_model.rnd_step good) rnd_gauge (Groups_model.rnd_init resolvers) l (Z.of_nat (length resolvers)) in
  (forall k, times ("route", k) log = number (fun i => String.eqb k (name i)) (Groups_spec.sents l) /\
             times ("failure", k) log = number (fun i => String.eqb k (name i)) (blamed (fun r => negb (good r)) [] l)) /\
  times ("failover", "") log = length (Groups_spec.sents l) + dead_ends l /\
  (Z.of_nat (length (Groups_model.r_active s)) <= available)%Z.
Proof. exact (random_counts name good resolvers l s). Qed.
Print Assumptions C93_random.
Theorem C93_random_gauge good resolvers l e s : Groups_model.exec (Groups_model.rnd_step good) (Groups_model.rnd_init resolvers) (l ++ [e])%list = Some s ->
  (match e with Groups_model.Sent _ _ | Groups_model.NoneLeft _ | Groups_model.Reactivate _ => True | _ => False end) ->
  exec_gauge (Groups_model.rnd_step good) rnd_gauge (Groups_model.rnd_init resolvers) (l ++ [e])%list (Z.of_nat (length resolvers)) = Z.of_nat (length (Groups_model.r_active s)).
Proof. exact (random_gauge good resolvers l e s). Qed.
Print Assumptions C93_random_gauge.
Theorem C93_load_balance name good picks up n l r : Groups_model.lb_resolve good picks up n = Some (l, r) -> forall k,
  times ("route", k) (lb_bumps name good picks up n) = number (fun i => String.eqb k (name i)) l /\
  times ("failure", k) (lb_bumps name good picks up n) = number (fun i => String.eqb k (name i)) (lb_bad good up 0 l) /\
  times ("failover", "") (lb_bumps name good picks up n) = length (lb_bad good up 0 l).
Proof. exact (lb_count name good picks up n l r). Qed.
Print Assumptions C93_load_balance.

(** ** Names: constructors never panic, in any number and with any ids, and every variable they ask for is there afterwards, and no other *)
Theorem C93_registry l r0 : foreign r0 ->
  exists r, construct l r0 = Some r /\ (forall n k, lookup n r0 = Some k -> lookup n r = Some k) /\
    (forall c id k b i n, In (c, id) l -> In (k, b, i, n) (vars c id) -> lookup (fullname b i n) r = Some k) /\
    (forall m k, lookup m r = Some k -> lookup m r0 = Some k \/ exists c id b i n, In (c, id) l /\ In (k, b, i, n) (vars c id) /\ m = fullname b i n).
Proof. exact (construct_ok l r0). Qed.
Print Assumptions C93_registry.
(** They are the documented ones. *)
Theorem C93_published l r0 r : foreign r0 -> construct l r0 = Some r ->
  forall m k, lookup m r = Some k <-> lookup m r0 = Some k \/ exists c id, In (c, id) l /\ published c id m k.
Proof. exact (published_ok l r0 r). Qed.
Print Assumptions C93_published.
(** A variable is only shared by elements with the same id, whatever the characters of the ids; redis caches share theirs. *)
Theorem C93_names c1 id1 c2 id2 k1 b1 i1 n1 k2 b2 i2 n2 :
  In (k1, b1, i1, n1) (vars c1 id1) -> In (k2, b2, i2, n2) (vars c2 id2) -> fullname b1 i1 n1 = fullname b2 i2 n2 ->
  b1 = b2 /\ n1 = n2 /\ k1 = k2 /\ (c1 <> CRedis -> c2 <> CRedis -> id1 = id2).
Proof. exact (names_distinct c1 id1 c2 id2 k1 b1 i1 n1 k2 b2 i2 n2). Qed.
Print Assumptions C93_names.

(** ** What does not hold *)
(** The gauge of a random group is not always the number of resolvers in use: a failed one is still counted. *)
Theorem C93_random_gauge_refuted : ~ forall good resolvers l s, Groups_model.exec (Groups_model.rnd_step good) (Groups_model.rnd_init resolvers) l = Some s ->
  exec_gauge (Groups_model.rnd_step good) rnd_gauge (Groups_model.rnd_init resolvers) l (Z.of_nat (length resolvers)) = Z.of_nat (length (Groups_model.r_active s)).
Proof. exact gauge_stale. Qed.
Print Assumptions C93_random_gauge_refuted.
(** Failover of a random group is not the number of changes to another resolver: it counts queries without any failure. *)
Theorem C93_random_failover_refuted : ~ forall name good resolvers l s, Groups_model.exec (Groups_model.rnd_step good) (Groups_model.rnd_init resolvers) l = Some s ->
  times ("failover", "") (exec_bumps (Groups_model.rnd_step good) (rnd_bumps name good) (Groups_model.rnd_init resolvers) l) <= length (Groups_spec.failures l).
Proof. exact failover_counts_picks. Qed.
Print Assumptions C93_random_failover_refuted.
(** The outcomes of DNS64 do not add up to all queries: a dropped one has none. *)
Theorem C93_dns64_sum_refuted : ~ forall prefixes resolve q, m_question q <> [] ->
  let l := dns64_bumps prefixes resolve q in times ("passthru", "") l + times ("err", "") l + times ("synth", "") l = 1.
Proof. exact d64_no_sum. Qed.
Print Assumptions C93_dns64_sum_refuted.

(** ** Examples *)
Module Examples.
Definition q (n : string) (t : N) : msg := set_question [Q n t 1] empty_msg.
Definition rc (n : N) : string := if N.eqb n 0 then "NOERROR" else if N.eqb n 2 then "SERVFAIL" else if N.eqb n 5 then "REFUSED" else "other".
Definition up (m : msg) (ci : client) : result :=
  match m_question m with x :: _ => if String.eqb (q_name x) "ok." then Ans (set_reply empty_msg m) else if String.eqb (q_name x) "drop." then Drop else Err "timeout" | [] => Err "" end.
Definition listen src m := listen_bumps up (fun _ => 12%N) (fun _ => 4%N) (fun _ m => m) rc "l" "udp" [] src "" m.
Example listening : map (fun n => listen [1; 2; 3; 4]%N (q n 1)) ["ok."; "drop."; "bad."] =
  [[("query", ""); ("response", "NOERROR")]; [("query", ""); ("drop", "")]; [("query", ""); ("error", "resolve"); ("response", "SERVFAIL")]].
Proof. vm_compute. reflexivity. Qed.
Example listening_none : listen [1; 2; 3; 4]%N empty_msg = [("error", "noquestion")].
Proof. reflexivity. Qed.
(** DoQ, clients of 10.0.0.0/8 only: parse_ok of this function is shown with C32. *)
Definition parse (s : string) : option bytes := if String.eqb s "10.0.0.0" then Some [10; 0; 0; 0]%N else None.
Example connecting : option_map (fun l => map (fun src => connection_bumps up (fun _ => Some (q "ok." 1)) (fun _ => Some [1]%N) rc "l" l src "" [(Listener_model.HsDone, true, [0; 1; 7]%N)]) [[10; 1; 1; 1]; [11; 1; 1; 1]]%N)
  (Listener_model.parseCIDRList parse ["10.0.0.0/8"]) = Some [[("session", ""); ("stream", ""); ("query", ""); ("response", "NOERROR")]; [("drop", "")]].
Proof. vm_compute. reflexivity. Qed.
(** Two resolvers; the first fails, the second is asked; the number of failovers is then 1. *)
Definition good (r : result) : bool := match r with Err _ => false | _ => true end.
Definition nm (i : nat) : string := match i with O => "a" | _ => "b" end.
Import Groups_model.
Definition run := [Call 0; Sent 0 0; Reply 0 (Err "timeout"); Failed 0; Sent 0 1; Reply 0 Drop].
Example rotating : exec_bumps (fr_step 2 good) (fr_bumps nm good) g_init run = [("route", "a"); ("failure", "a"); ("failover", ""); ("route", "b")].
Proof. reflexivity. Qed.
Example rotating_runs : exists s, exec (fr_step 2 good) g_init run = Some s /\ g_pc s 0 = Returned Drop.
Proof. eexists. split; reflexivity. Qed.
Example falling_back : exec_gauge (fb_step 2 good 5) (fb_gauge 2 5) fb_init [Call 0; Sent 0 0; Reply 0 (Err "timeout"); Failed 0] 2 = 1%Z /\
  exec_gauge (fb_step 2 good 5) (fb_gauge 2 5) fb_init [Call 0; Sent 0 0; Reply 0 (Err "timeout"); Failed 0; TimerStart; Pass 5; TimerFire] 2 = 2%Z.
Proof. split; reflexivity. Qed.
Example picking : exec_bumps (rnd_step good) (rnd_bumps nm good) (rnd_init [0; 1]) [Call 0; Sent 0 1; Reply 0 Drop] = [("failover", ""); ("route", "b")].
Proof. reflexivity. Qed.
Example balancing : lb_bumps nm good (fun _ _ => 0) (fun _ i => if Nat.eqb i 0 then Err "timeout" else Drop) 2 = [("route", "a"); ("failure", "a"); ("failover", ""); ("route", "b")].
Proof. reflexivity. Qed.
Definition found (ok : bool) : mres := MRes [] [] (Some ("list", "rule")) ok.
Example blocking : block_bumps None (fun _ => Some (found true)) (q "x." 1) = [("deny", "")] /\ block_bumps (Some (fun _ => Some (found true))) (fun _ => Some (found true)) (q "x." 1) = [("allow", "")].
Proof. split; reflexivity. Qed.
Example translating : dns64_bumps [] (fun _ => Drop) (q "x." 28) = [("query", "")] /\ dns64_bumps [] (fun _ => Err "") (q "x." 28) = [("query", ""); ("err", "")] /\ dns64_bumps [] (fun _ => Drop) (q "x." 1) = [("passthru", "")].
Proof. repeat split; reflexivity. Qed.
Example limiting : rate_all (fun _ => "net") (RateLimit_model.RlOpts 1 60 24 64) false [(1%Z, [1; 2; 3; 4]%N); (2%Z, [1; 2; 3; 4]%N)] (RateLimit_model.Rl 0 (Some (fun _ => 0%N))) =
  [("query", ""); ("query", ""); ("exceed", ""); ("drop", "")].
Proof. vm_compute. reflexivity. Qed.
Example constructing : exists r, construct [(CCache, "a.b"); (CCache, "a"); (CRouter, "a"); (CDNSListener, "a"); (CClient, "a"); (CCache, "a")] [("cmdline", KInt)] = Some r /\
  lookup "routedns.cache.a.b.hit" r = Some KInt /\ lookup "routedns.router.a.route" r = Some KMap /\ length r = 20.
Proof. eexists. split; [vm_compute; reflexivity|]. repeat split; vm_compute; reflexivity. Qed.
Example foreign_one : foreign [("cmdline", KInt); ("memstats", KMap)].
Proof. intros m k [[= <- <-]|[[= <- <-]|[]]]; reflexivity. Qed.
End Examples.
