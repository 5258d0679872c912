(** What the settings of the groups in ModCfg_model.v are to mean, in words of the documentation. *)
From Verif Require Import Base Bytes Dns Cidr_spec Net_spec Redis_model Modifiers_spec Static_spec RateLimit_spec ListCfg_model Blocklist_model Static_model ModCfg_model.
From Verif Require Dns64_spec Groups_spec FastestTcp_spec.
Local Open Scope N_scope.

(** The surroundings: the resolvers there are, what they answer, and the libraries *)
Record world (R : Type) := World {
  w_resolvers : string -> option R;
  w_answer : R -> msg -> client -> result;
  w_regexp : string -> option (string -> string -> string);
  w_record : string -> option (option rr);
  w_template : string -> option (tinput -> option string);
  w_text : string -> option (msg -> option (string * string) -> option string);
  w_addr : string -> option bytes;
  w_random : N -> N;
  w_probes : string -> list rr -> list (nat * bool);
  w_class : N -> string; w_type : N -> string }.
Arguments w_resolvers {R}. Arguments w_answer {R}. Arguments w_regexp {R}. Arguments w_record {R}. Arguments w_template {R}.
Arguments w_text {R}. Arguments w_addr {R}. Arguments w_random {R}. Arguments w_probes {R}. Arguments w_class {R}. Arguments w_type {R}.
(** The group a configuration makes, and its treatment of a query *)
Definition made {R} (w : world R) (type : string) (g : settings) : option (element R) :=
  make R (w_resolvers w) (w_regexp w) (w_record w) (w_template w) (w_text w) (w_addr w) type g.
Definition does {R} (w : world R) (e : element R) (q : msg) (ci : client) : option (list (R * msg) * result) :=
  ask R (w_answer w) (w_random w) (w_probes w) e q ci.

(** The only resolver of a group; the resolvers of a group *)
Definition only {R} (w : world R) (g : settings) (up : R) : Prop := exists n, s_resolvers g = [n] /\ w_resolvers w n = Some up.
Definition several {R} (w : world R) (g : settings) (l : list R) : Prop := Forall2 (fun n r => w_resolvers w n = Some r) (s_resolvers g) l.

(** ttl-select *)
Inductive selects (lo hi : N) (l : list N) (v : N) : string -> Prop :=
| Sel_lowest : is_lowest l v -> selects lo hi l v "lowest"
| Sel_highest : is_highest l v -> selects lo hi l v "highest"
| Sel_average : is_average l v -> selects lo hi l v "average"
| Sel_first : is_first l v -> selects lo hi l v "first"
| Sel_last : is_last l v -> selects lo hi l v "last"
| Sel_random : is_between lo hi v -> selects lo hi l v "random".
(** What becomes of a response *)
Definition ttl_says (g : settings) (a a' : msg) : Prop :=
  (s_ttlSelect g = ""%string -> ttl_mapped (limited (s_ttlMin g) (s_ttlMax g)) a a') /\
  (s_ttlSelect g <> ""%string -> records a <> [] ->
     exists v, selects (s_ttlMin g) (s_ttlMax g) (map rr_ttl (records a)) v (s_ttlSelect g) /\
               ttl_mapped (fun _ => limited (s_ttlMin g) (s_ttlMax g) v) a a') /\
  (records a = [] -> a' = a).

(** ecs-op: what becomes of a query from a client *)
Definition ecs_added (g : settings) (ci : client) (q q' : msg) : Prop :=
  let ip := match s_ecsAddress g with [] => ci_ip ci | _ => s_ecsAddress g end in
  ip_ok ip -> exists o, subnet_of ip (s_ecsPrefix4 g) (s_ecsPrefix6 g) o /\ replaced subnet o q q'.
Inductive ecs_says (g : settings) (ci : client) (q q' : msg) : string -> Prop :=
| Ecs_none : q' = q -> ecs_says g ci q q' ""
| Ecs_add : ecs_added g ci q q' -> ecs_says g ci q q' "add"
| Ecs_missing : (has_subnet q -> q' = q) -> (~ has_subnet q -> ecs_added g ci q q') -> ecs_says g ci q q' "add-if-missing"
| Ecs_delete : removed subnet q q' -> ecs_says g ci q q' "delete"
| Ecs_privacy : ((forall r opts, In r (m_extra q) -> rr_data r = DOPT opts -> Forall subnet_wf opts) ->
      (no_edns0 q -> q' = q) /\ (~ no_edns0 q -> opt_edit (Forall2 (shortened (s_ecsPrefix4 g) (s_ecsPrefix6 g))) q q')) ->
    ecs_says g ci q q' "privacy".
(** edns0-op *)
Inductive edns0_says (g : settings) (q q' : msg) : string -> Prop :=
| Opt_none : q' = q -> edns0_says g q q' ""
| Opt_add : replaced (fun o => opt_code o = s_edns0Code g) (LOCAL (s_edns0Code g) (s_edns0Data g)) q q' -> edns0_says g q q' "add"
| Opt_delete : removed (fun o => opt_code o = s_edns0Code g) q q' -> edns0_says g q q' "delete".

(** Replacing one expression after the other *)
Inductive rewritten (re : string -> option (string -> string -> string)) : list (string * string) -> string -> string -> Prop :=
| Rw_nil n : rewritten re [] n n
| Rw_cons from to f l n n' : re from = Some f -> rewritten re l (f to n) n' -> rewritten re ((from, to) :: l) n n'.

(** The extended error of a setting for a query, if it is set *)
Definition ede_says {R} (w : world R) (g : settings) (q : msg) (x : option (N * string)) : Prop :=
  (s_edeCode g = 0 /\ s_edeText g = ""%string /\ x = None) \/
  (~ (s_edeCode g = 0 /\ s_edeText g = ""%string) /\ exists f, w_text w (s_edeText g) = Some f /\ x = option_map (pair (s_edeCode g)) (f q None)).

(** Times in settings *)
Definition short (n : Z) : Prop := (-9223372036 <= n <= 9223372036)%Z.
Definition ns (n : Z) : Z := (n * 1000000000)%Z.
(** The rate limit settings in force *)
Definition or_default (n d : N) : N := if N.eqb n 0 then d else n.

(** The prefixes of DNS64 in force; the port of TCP probes, in decimal digits *)
Definition prefixes (g : settings) : list string := match s_dns64Prefix g with [] => ["64:ff9b::/96"%string] | l => l end.
Definition port_says (g : settings) (p : string) : Prop := (s_port g = 0 /\ p = "443"%string) \/ (s_port g <> 0 /\ p = itoa (s_port g)).
(** The reset-after setting in force, in nanoseconds *)
Definition reset (g : settings) : Z := ns (match s_resetAfter g with None => 60%Z | Some n => n end).

(** A reply is usable as the two settings say *)
Definition accepts (g : settings) (good : result -> bool) : Prop := forall r, good r = true <-> Groups_spec.usable (s_servfailError g) (s_emptyError g) r.

(** Which groups can be made *)
Definition startable {R} (w : world R) (type : string) (g : settings) : Prop :=
  let up := exists r, only w g r in
  let all := exists l, several w g l in
  let text := (s_edeCode g = 0 /\ s_edeText g = ""%string) \/ w_text w (s_edeText g) <> None in
  (In type ["round-robin"; "fail-rotate"; "fail-back"; "fastest"; "load-balance"; "random"; "drop"]%string /\ all) \/
  (In type ["request-dedup"; "fastest-tcp"; "response-minimize"; "response-collapse"; "rate-limiter"]%string /\ up) \/
  (type = "replace"%string /\ up /\ Forall (fun x => w_regexp w (fst x) <> None) (s_replace g)) \/
  (type = "ttl-modifier"%string /\ up /\ In (s_ttlSelect g) [""; "lowest"; "highest"; "average"; "first"; "last"; "random"]%string) \/
  (type = "truncate-retry"%string /\ up /\ w_resolvers w (s_retryResolver g) <> None) \/
  (type = "ecs-modifier"%string /\ up /\ In (s_ecsOp g) [""; "add"; "add-if-missing"; "delete"; "privacy"]%string) \/
  (type = "edns0-modifier"%string /\ up /\ In (s_edns0Op g) [""; "add"; "delete"]%string) \/
  (type = "static-responder"%string /\ all /\ text /\ Forall (fun t => w_record w t <> None) (s_answer g ++ s_ns g ++ s_extra g)) \/
  (type = "static-template"%string /\ all /\ text /\ Forall (fun t => w_template w t <> None) (s_answer g ++ s_ns g ++ s_extra g)) \/
  (type = "dns64"%string /\ up /\ Forall (fun s => exists n, Dns64_spec.prefix_text (w_addr w) s n) (prefixes g)).
