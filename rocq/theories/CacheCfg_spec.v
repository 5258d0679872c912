(** What the settings of the groups in CacheCfg_model.v are to mean, in words of the documentation. *)
From Verif Require Import Base Bytes Dns Lru_model Blob_model Cache_model Cache_spec Keystore_model ListCfg_model CacheCfg_model.
From Verif Require Router_spec Shuffle_spec Logs_model.
Local Open Scope N_scope.

(** The surroundings: the resolvers there are, the files, and what the Lua library thinks of scripts *)
Record world (R : Type) := World {
  w_resolvers : string -> option R;
  w_file : string -> option string;
  w_append : string -> bool;
  w_compile : string -> bool;
  w_first : string -> bool -> bool }.
Arguments w_resolvers {R}. Arguments w_file {R}. Arguments w_append {R}. Arguments w_compile {R}. Arguments w_first {R}.
Definition made {R} (w : world R) (type : string) (g : settings) : option (element R) :=
  make R (w_resolvers w) (w_file w) (w_append w) (w_compile w) (w_first w) type g.
(** The only resolver of a group; the resolvers of a group *)
Definition only {R} (w : world R) (g : settings) (up : R) : Prop := exists n, c_resolvers g = [n] /\ w_resolvers w n = Some up.
Definition several {R} (w : world R) (g : settings) (l : list R) : Prop := Forall2 (fun n r => w_resolvers w n = Some r) (c_resolvers g) l.

(** Durations of seconds and milliseconds that an int64 of nanoseconds holds *)
Definition short (n : Z) : Prop := (- 9223372036 <= n <= 9223372036)%Z.
Definition short_ms (n : Z) : Prop := (- 9223372036854 <= n <= 9223372036854)%Z.
(** The values of 32 bits *)
Definition small (g : settings) : Prop :=
  c_negativeTTL g <= 4294967295 /\ (forall k v, In (k, v) (c_rcodeMax g) -> v <= 4294967295) /\ c_trigger g <= 4294967295.

(** ** Cache *)
(** cache-negative-ttl, by default one minute *)
Definition negative (g : settings) : N := match c_negativeTTL g with 0 => 60 | n => n end.
(** cache-rcode-max-ttl *)
Definition limit (g : settings) (rc v : N) : Prop := exists k, In (k, v) (c_rcodeMax g) /\ Router_spec.signed k (Z.of_N rc).
(** No response code has two limits *)
Definition unambiguous (g : settings) : Prop := forall rc v v', limit g rc v -> limit g rc v' -> v = v'.
(** NOERROR, FORMERR, NXDOMAIN, NOTIMP, REFUSED *)
Definition regular (a : msg) : Prop := In (m_rcode a) [0; 1; 3; 4; 5].
(** The TTL that counts: the smallest of the records, where the largest possible stands for none *)
Definition ttl_of (a : msg) (n : N) : Prop := smallest (records a) = Some n /\ n <> 4294967295.
(** Seconds that an answer is kept without limits for response codes *)
Inductive unlimited (g : settings) (a : msg) : N -> Prop :=
| Kept_ttl n : regular a -> ttl_of a n -> unlimited g a n
| Kept_negative : regular a -> (forall n, ~ ttl_of a n) -> unlimited g a (negative g)
| Kept_servfail : m_rcode a = 2 -> unlimited g a (N.min (negative g) 300).
(** Seconds that an answer is kept *)
Definition kept (g : settings) (a : msg) (n : N) : Prop :=
  m_tc a = false /\ exists b, unlimited g a b /\
    ((exists v, limit g (m_rcode a) v /\ n = N.min v b) \/ (forall v, ~ limit g (m_rcode a) v) /\ n = b).
(** cache-prefetch-eligible *)
Definition eligible (g : settings) (a : msg) : Prop := regular a /\ exists n, ttl_of a n /\ c_eligible g < n.
(** cache-flush-query *)
Definition flushes (g : settings) (q : msg) : Prop := c_flush g <> ""%string /\ exists x l, m_question q = x :: l /\ q_name x = c_flush g.
(** [r] is the answer [a] that came for the same question, is kept as the settings say, and is the latest one *)
Definition comes_from (g : settings) (pack : msg -> option bytes) (l : list event) (q : msg) (now : Z) (a r : msg) : Prop :=
  exists l1 e l2 q0 t0 n,
    l = l1 ++ e :: l2 /\ arrival e = Some (q0, t0, a) /\ same_question q0 q /\
    kept g a n /\ (now <= t0 + Z.of_N n * a_second)%Z /\ aged_msg q t0 now a r /\
    (forall e' q' t' a', In e' l2 -> arrival e' = Some (q', t', a') -> (exists n', kept g a' n') -> pack a' <> None -> ~ same_question q' q).
(** cache-answer-shuffle *)
Inductive shuffles (m r : msg) : string -> Prop :=
| Shuffle_none : r = m -> shuffles m r ""
| Shuffle_random : Shuffle_spec.shuffled m r -> shuffles m r "random"
| Shuffle_round : Shuffle_spec.shuffled m r -> shuffles m r "round-robin".
(** The settings for a cache in memory: those of the backend if there is one *)
Definition in_memory (g : settings) : Prop := c_backend g = None \/ exists b, c_backend g = Some b /\ b_type b = "memory"%string.
Definition capacity (g : settings) : Z := match c_backend g with None => c_size g | Some b => b_size b end.
Definition gc_seconds (g : settings) : Z := match c_backend g with None => c_gcPeriod g | Some b => b_gcPeriod b end.
(** Seconds, and milliseconds, in nanoseconds; by default, 0, a minute *)
Definition ns (n : Z) : Z := (n * 1000000000)%Z.
Definition period (n p : Z) : Prop := (n = 0 /\ p = ns 60)%Z \/ (n <> 0 /\ p = ns n)%Z.
(** -1 turns waiting between attempts off *)
Definition wait (n p : Z) : Prop := (n = -1 /\ p = -1)%Z \/ (n <> -1 /\ p = n * 1000000)%Z.

(** ** Logs *)
(** RFC 5424, table 2 *)
Inductive severity : string -> Z -> Prop :=
| Sev_default : severity "" 0 | Sev_emergency : severity "emergency" 0 | Sev_alert : severity "alert" 1 | Sev_critical : severity "critical" 2 | Sev_error : severity "error" 3
| Sev_warning : severity "warning" 4 | Sev_notice : severity "notice" 5 | Sev_info : severity "info" 6 | Sev_debug : severity "debug" 7.
Inductive format : string -> logformat -> Prop :=
| Fmt_default : format "" TextLog | Fmt_text : format "text" TextLog | Fmt_json : format "json" JSONLog.

(** ** Scripts *)
Definition script_of {R} (w : world R) (g : settings) (s : string) : Prop :=
  (l_source g = ""%string /\ s = l_script g) \/ (l_source g <> ""%string /\ w_file w (l_source g) = Some s).

(** ** Which groups can be made *)
Definition known_code (s : string) : Prop := exists z, Router_spec.signed s z /\ (- 2 ^ 63 <= z < 2 ^ 63)%Z.
Inductive startable {R} (w : world R) (g : settings) : string -> Prop :=
| St_syslog up : only w g up -> (exists p, severity (y_priority g) p) -> startable w g "syslog"
| St_cache up : only w g up -> In (c_shuffle g) [""; "random"; "round-robin"]%string -> Forall (fun kv => known_code (fst kv)) (c_rcodeMax g) ->
    (forall b, c_backend g = Some b -> In (b_type b) ["memory"; "redis"]%string) -> startable w g "cache"
| St_prefetch up : only w g up -> startable w g "prefetch"
| St_querylog up : only w g up -> (f_file g <> ""%string -> w_append w (f_file g) = true) -> (exists f, format (f_format g) f) -> startable w g "query-log"
| St_lua l s : several w g l -> script_of w g s -> s <> ""%string -> w_compile w s = true -> w_first w s (l_noSandbox g) = true -> startable w g "lua"
| St_validator up : only w g up -> startable w g "dnssec-validator".
