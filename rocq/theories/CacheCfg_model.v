(** The groups that cache, refresh, log, run scripts or validate, as main.go builds them:
    cmd/routedns/main.go:475-486, 712-833, 1013-1069 (instantiateGroup), with the constructors they call. *)
From Verif Require Import Base Bytes Dns Lru_model Blob_model Cache_model Keystore_model ListCfg_model.
From Verif Require Router_model Prefetch_model Logs_model Lua_model Anchor_model Dnssec_model.
Local Open Scope bool_scope.

(** cmd/routedns/config.go:90-107 cacheBackend *)
Record backend := Backend {
  b_type : string; b_size : Z; b_gcPeriod : Z; b_filename : string; b_saveInterval : Z;
  b_network : string; b_address : string; b_username : string; b_password : string; b_db : Z; b_keyPrefix : string;
  b_maxRetries : Z; b_minBackoff : Z; b_maxBackoff : Z; b_syncSet : bool }.
(** cmd/routedns/config.go:109-224 group: the fields of these types. [c_rcodeMax] is a map: its entries in the order in which range
    visits them, which is any order. The durations of prefetch are nanoseconds. *)
Record settings := Settings {
  c_resolvers : list string;
  c_gcPeriod : Z; c_size : Z; c_negativeTTL : N; c_rcodeMax : list (string * N); c_shuffle : string; c_harden : bool; c_flush : string;
  c_trigger : N; c_eligible : N; c_backend : option backend;
  p_window : Z; p_threshold : N; p_cacheSize : Z; p_maxItems : Z;
  y_network : string; y_address : string; y_priority : string; y_tag : string; y_request : bool; y_response : bool; y_verbose : bool;
  f_file : string; f_format : string;
  l_script : string; l_source : string; l_concurrency : nat; l_noSandbox : bool;
  d_anchors : list anchor; d_url : string; d_logOnly : bool }.
(** A group with no other setting than its resolvers, in Go the zero value *)
Definition plain (resolvers : list string) : settings :=
  Settings resolvers 0 0 0 [] "" false "" 0 0 None 0 0 0 0 "" "" "" "" false false false "" "" "" "" 0 false [] "" false.

(** cache.go:38-78 ShuffleAnswerFunc; nil: the answer is left alone *)
Inductive shuffler := NoShuffle | ShuffleRandom | ShuffleRoundRobin.
(** cache-memory.go:25-38 MemoryBackendOptions and cache-redis.go RedisBackendOptions, durations in nanoseconds *)
Record redisopts := RedisOpts {
  r_network : string; r_address : string; r_username : string; r_password : string; r_db : Z; r_retries : Z; r_minBackoff : Z; r_maxBackoff : Z;
  r_prefix : string; r_sync : bool }.
Inductive backing := Memory (capacity gcPeriod : Z) (filename : string) (saveInterval : Z) | Redis (o : redisopts).
Inductive logformat := TextLog | JSONLog.

Section CFG.
Variable R : Type.
(** The resolvers there are so far *)
Variable resolvers : string -> option R.
(** os.ReadFile; whether os.OpenFile can open a file to append to it *)
Variable readFile : string -> option string.
Variable openAppend : string -> bool.
(** Whether LuaCompile takes a script, and whether a script in its first run fails: newScript, without or with the sandbox *)
Variable luaCompile : string -> bool.
Variable newScript : string -> bool -> bool.

Inductive element :=
| ECache (up : R) (o : options) (shuffle : shuffler) (store : backing)
| EPrefetching (up : R) (window : Z) (threshold : N) (cacheSize maxItems : Z)
| ESyslog (up : R) (network address : string) (priority : Z) (tag : string) (opt : Logs_model.syslogopts)
| EQueryLog (up : R) (file : option string) (format : logformat)
| ELua (gr : list R) (script : string) (noSandbox : bool) (scripts : Lua_model.pool)
| EValidator (up : R) (anchors : list anchor) (url : string) (logOnly : bool).

(** main.go:476-485; None: an error *)
Fixpoint lookup_all (names : list string) : option (list R) :=
  match names with
  | [] => Some []
  | n :: names' => match resolvers n with
                   | None => None
                   | Some r => option_map (cons r) (lookup_all names')
                   end
  end.
Definition one (gr : list R) (f : R -> option element) : option element := match gr with [up] => f up | _ => None end.

(** main.go:717-736; the values are those of log/syslog *)
Definition priority_of (w : string) : option Z :=
  if String.eqb w "emergency" || String.eqb w "" then Some 0%Z
  else if String.eqb w "alert" then Some 1%Z
  else if String.eqb w "critical" then Some 2%Z
  else if String.eqb w "error" then Some 3%Z
  else if String.eqb w "warning" then Some 4%Z
  else if String.eqb w "notice" then Some 5%Z
  else if String.eqb w "info" then Some 6%Z
  else if String.eqb w "debug" then Some 7%Z
  else None.
(** main.go:751-760 *)
Definition shuffle_of (w : string) : option shuffler :=
  if String.eqb w "" then Some NoShuffle
  else if String.eqb w "random" then Some ShuffleRandom
  else if String.eqb w "round-robin" then Some ShuffleRoundRobin
  else None.
(** main.go:762-769: later entries overwrite earlier ones of the same code *)
Fixpoint codes (l : list (string * N)) (m : Z -> option N) : option (Z -> option N) :=
  match l with
  | [] => Some m
  | (k, v) :: l' => match Router_model.atoi k with
                    | None => None
                    | Some code => codes l' (fun c => if Z.eqb c code then Some v else m c)
                    end
  end.
(** cache-memory.go:42-45 NewMemoryBackend *)
Definition newMemory (capacity gcPeriod : Z) (filename : string) (saveInterval : Z) : backing :=
  Memory capacity (if Z.eqb gcPeriod 0 then 60000000000%Z else gcPeriod) filename saveInterval.
(** time.Duration(n) * time.Millisecond *)
Definition millis (n : Z) : Z := ((n * 1000000 + 9223372036854775808) mod 18446744073709551616 - 9223372036854775808)%Z.
(** main.go:794-801 *)
Definition backoff (n : Z) : Z := if Z.eqb n (-1) then (-1)%Z else millis n.
(** main.go:782-820 *)
Definition backend_of (b : backend) : option backing :=
  if String.eqb (b_type b) "memory" then Some (newMemory (b_size b) (seconds (b_gcPeriod b)) (b_filename b) (seconds (b_saveInterval b)))
  else if String.eqb (b_type b) "redis" then
    Some (Redis (RedisOpts (b_network b) (b_address b) (b_username b) (b_password b) (b_db b) (b_maxRetries b) (backoff (b_minBackoff b)) (backoff (b_maxBackoff b)) (b_keyPrefix b) (b_syncSet b)))
  else None.
(** main.go:747-822 and cache.go:168-189 NewCache *)
Definition newCache (up : R) (g : settings) : option element :=
  match shuffle_of (c_shuffle g), codes (c_rcodeMax g) (fun _ => None) with
  | Some sh, Some m =>
      let o := Options (default_negttl (c_negativeTTL g)) (fun rc => m (Z.of_N rc)) (c_harden g) (c_flush g) (c_trigger g) (c_eligible g) in
      match c_backend g with
      | None => Some (ECache up o sh (newMemory (c_size g) (seconds (c_gcPeriod g)) "" 0))
      | Some b => option_map (ECache up o sh) (backend_of b)
      end
  | _, _ => None
  end.
(** main.go:823-833 and prefetch.go:42-50 *)
Definition newPrefetch (up : R) (g : settings) : element :=
  EPrefetching up (Prefetch_model.window_of (p_window g)) (Prefetch_model.threshold_of (p_threshold g)) (if Z.eqb (p_cacheSize g) 0 then (p_maxItems g * 3)%Z else p_cacheSize g) (p_maxItems g).
(** query-log.go:36-62 NewQueryLogResolver *)
Definition newQueryLog (up : R) (g : settings) : option element :=
  if negb (String.eqb (f_file g) "") && negb (openAppend (f_file g)) then None
  else
    let file := if String.eqb (f_file g) "" then None else Some (f_file g) in
    if String.eqb (f_format g) "" || String.eqb (f_format g) "text" then Some (EQueryLog up file TextLog)
    else if String.eqb (f_format g) "json" then Some (EQueryLog up file JSONLog)
    else None.
(** main.go:1026-1040 and lua.go:28-56 NewLua; the concurrency is at least one, so that a script that fails in its first run is an error *)
Definition newLua (gr : list R) (g : settings) : option element :=
  match (if String.eqb (l_source g) "" then Some (l_script g) else readFile (l_source g)) with
  | None => None
  | Some script =>
      if String.eqb script "" then None
      else if negb (luaCompile script) then None
      else if negb (newScript script (l_noSandbox g)) then None
      else Some (ELua gr script (l_noSandbox g) (Lua_model.newPool (l_concurrency g)))
  end.

(** instantiateGroup for these types; None: an error, or another type *)
Definition make (type : string) (g : settings) : option element :=
  match lookup_all (c_resolvers g) with
  | None => None
  | Some gr =>
      (* main.go:712-746 *)
      if String.eqb type "syslog" then one gr (fun up => option_map (fun p => ESyslog up (y_network g) (y_address g) p (y_tag g) (Logs_model.SyslogOpts (y_request g) (y_response g) (y_verbose g))) (priority_of (y_priority g)))
      (* main.go:747-822 *)
      else if String.eqb type "cache" then one gr (fun up => newCache up g)
      (* main.go:823-833 *)
      else if String.eqb type "prefetch" then one gr (fun up => Some (newPrefetch up g))
      (* main.go:1013-1024 *)
      else if String.eqb type "query-log" then one gr (fun up => newQueryLog up g)
      (* main.go:1025-1046 *)
      else if String.eqb type "lua" then newLua gr g
      (* main.go:1047-1069 *)
      else if String.eqb type "dnssec-validator" then one gr (fun up => Some (EValidator up (d_anchors g) (d_url g) (d_logOnly g)))
      else None
  end.

(** ** Running them *)
(** The function that an answer from the cache goes through; [choices] is the source of randomness, [reads] the counter of round-robin *)
Definition shuffle_fun (s : shuffler) (choices : list (nat * nat)) (reads : option N) (m : msg) : msg :=
  match s with
  | NoShuffle => m
  | ShuffleRandom => AnswerShuffleRandom choices m
  | ShuffleRoundRobin => snd (AnswerShuffleRoundRobin reads m)
  end.
(** The cache in memory after a history that began with no entries, and what it does first with a query; None also: not a cache in memory *)
Definition cacheRuns (e : element) (ipString : bytes -> string) (pack : msg -> option bytes) (unpack : bytes -> option msg) (hash : lruKey -> N) (l : list event) : option (lru bytes) :=
  match e with
  | ECache _ o _ (Memory capacity _ _ _) => exec_all ipString pack unpack hash o (cache_new capacity) l
  | _ => None
  end.
Definition cacheAsk (e : element) (ipString : bytes -> string) (unpack : bytes -> option msg) (hash : lruKey -> N) (choices : list (nat * nat)) (reads : option N) (q : msg) (now : Z)
    (c : lru bytes) : option (lru bytes * option (msg * effect)) :=
  match e with
  | ECache _ o s (Memory _ _ _ _) => resolve_lookup ipString unpack hash o (shuffle_fun s choices reads) q now c
  | _ => None
  end.
(** dnssec.go:65-98 NewDNSSECValidator: the validator at work on queries *)
Definition validatorRuns (e : element) (get : string -> option Anchor_model.httpResult) (unmarshal : string -> option (list Anchor_model.keydigest))
    (verify : rr -> rr -> list rr -> bool) (keyTag : rr -> N) (toDS : rr -> N -> option string) (hashName : string -> N -> N -> string -> string)
    (now : Z) (qs : list msg) : option (Dnssec_model.sys result) :=
  match e with
  | EValidator _ anchors url logOnly =>
      Some (Dnssec_model.Sys (Z.to_N (now / 10 ^ 9)) (Anchor_model.newValidator get unmarshal now anchors url) (map (Dnssec_model.resolve verify keyTag toDS hashName logOnly) qs))
  | _ => None
  end.
End CFG.
