(** cmd/routedns/main.go: the whole program, from its arguments to the listeners. The elements are made as in ListCfg_model.v,
    ModCfg_model.v, CacheCfg_model.v, ResCfg_model.v, Router_model.v and LCfg_model.v, the graph is that of Config_model.v. *)
From Verif Require Import Base Bytes Dns Net Config_model.
From Verif Require ListCfg_model ModCfg_model CacheCfg_model ResCfg_model LCfg_model Router_model Static_model Addr_model.
Local Open Scope bool_scope.

(** cmd/routedns/config.go:109-224 group, the parts of C87, C88 and C89. Resolvers and extended error are those of [g_mods]; the copies
    in the other two are not used. *)
Record group := Group { g_type : string; g_lists : ListCfg_model.group; g_mods : ModCfg_model.settings; g_caches : CacheCfg_model.settings }.
Definition resolvers_of (g : group) : list string := ModCfg_model.s_resolvers (g_mods g).
Definition lists (g : group) : ListCfg_model.group :=
  let l := g_lists g in
  ListCfg_model.Group (ListCfg_model.g_source l) (ListCfg_model.g_format l) (ListCfg_model.g_refresh l)
    (ListCfg_model.g_blocklist l) (ListCfg_model.g_blocklistFormat l) (ListCfg_model.g_blocklistSource l) (ListCfg_model.g_blocklistRefresh l) (ListCfg_model.g_blocklistResolver l)
    (ListCfg_model.g_allowlist l) (ListCfg_model.g_allowlistFormat l) (ListCfg_model.g_allowlistSource l) (ListCfg_model.g_allowlistRefresh l) (ListCfg_model.g_allowlistResolver l)
    (ListCfg_model.g_locationDB l) (ListCfg_model.g_filter l) (ListCfg_model.g_inverted l) (ListCfg_model.g_useECS l)
    (ModCfg_model.s_edeCode (g_mods g)) (ModCfg_model.s_edeText (g_mods g)).
Definition caches (g : group) : CacheCfg_model.settings :=
  match g_caches g with
  | CacheCfg_model.Settings _ gc size neg rc sh hd fl tr el be pw pt pc pm yn ya yp yt yq yr yv ff fm ls lo lc ln da du dl =>
      CacheCfg_model.Settings (resolvers_of g) gc size neg rc sh hd fl tr el be pw pt pc pm yn ya yp yt yq yr yv ff fm ls lo lc ln da du dl
  end.
(** cmd/routedns/config.go:246-262 route *)
Record route := Route {
  t_type : string; t_types : list string; t_class : string; t_name : string; t_source : string; t_ecs : string; t_weekdays : list string;
  t_after : string; t_before : string; t_invert : bool; t_dohpath : string; t_resolver : string; t_listener : string; t_tls : string }.
(** cmd/routedns/config.go:14-21 config. The maps: their entries in the order in which range visits them, which is any order. *)
Record program := Program {
  p_boot : ResCfg_model.settings; p_resolvers : list (string * ResCfg_model.settings); p_groups : list (string * group);
  p_routers : list (string * list route); p_listeners : list (string * LCfg_model.settings) }.

(** The surroundings: those of the parts. [w_res]: the resolver behind net.DefaultResolver, nil at first, decides what lookups find *)
Record world (CA Cert Key : Type) := World {
  w_open : string -> option string;          (* os.Open and io.Copy of a file with a configuration *)
  w_toml : string -> option program;         (* toml.Decoder.Decode *)
  w_res : option (ResCfg_model.client CA Cert) -> ResCfg_model.world CA Cert;
  w_addr : string -> option bytes; w_authority : string -> bool; w_opens : ListCfg_model.db -> bool;
  w_text : string -> option (msg -> option (string * string) -> option string); w_replace : string -> option (string -> string -> string);
  w_record : string -> option (option rr); w_template : string -> option (Static_model.tinput -> option string);
  w_file : string -> option string; w_append : string -> bool; w_compile : string -> bool; w_first : string -> bool -> bool;
  w_match : string -> option (string -> bool); w_type : string -> option N;
  w_url : string -> option Addr_model.url; w_ip : string -> bytes; w_udp : string -> option (bytes * Z);
  w_pem : string -> option (list CA); w_load : string -> string -> option Cert; w_hex : string -> option bytes; w_pair : bytes -> option Key }.
Arguments World {CA Cert Key}. Arguments w_open {CA Cert Key}. Arguments w_toml {CA Cert Key}. Arguments w_res {CA Cert Key}. Arguments w_addr {CA Cert Key}.
Arguments w_authority {CA Cert Key}. Arguments w_opens {CA Cert Key}. Arguments w_text {CA Cert Key}. Arguments w_replace {CA Cert Key}. Arguments w_record {CA Cert Key}.
Arguments w_template {CA Cert Key}. Arguments w_file {CA Cert Key}. Arguments w_append {CA Cert Key}. Arguments w_compile {CA Cert Key}. Arguments w_first {CA Cert Key}.
Arguments w_match {CA Cert Key}. Arguments w_type {CA Cert Key}. Arguments w_url {CA Cert Key}. Arguments w_ip {CA Cert Key}. Arguments w_udp {CA Cert Key}.
Arguments w_pem {CA Cert Key}. Arguments w_load {CA Cert Key}. Arguments w_hex {CA Cert Key}. Arguments w_pair {CA Cert Key}.

(** resolvers, a map *)
Definition table (A : Type) := list (string * A).
Fixpoint get {A} (id : string) (m : table A) : option A :=
  match m with [] => None | (i, o) :: m' => if String.eqb i id then Some o else get id m' end.
Definition find_id {A} (id : string) (l : list (string * A)) : option A := option_map snd (find (fun x => String.eqb (fst x) id) l).

Section START.
Variables CA Cert Key : Type.
Variable w : world CA Cert Key.

(** An element with its name and the elements it was given. Elements with the same name are the same object. A router has one element for each of its routes. *)
Inductive node :=
| NResolver (id : string) (c : ResCfg_model.client CA Cert)
| NLists (id : string) (e : ListCfg_model.element node)
| NMods (id : string) (e : ModCfg_model.element node)
| NCaches (id : string) (e : CacheCfg_model.element node)
| NRouter (id : string) (routes : list Router_model.route) (to : list node).

(** main.go:475-1085 instantiateGroup *)
Definition instantiateGroup (id : string) (g : group) (m : table node) : option node :=
  let resolvers n := get n m in
  match ModCfg_model.lookup_all node resolvers (resolvers_of g) with
  | None => None
  | Some gr =>
      match ListCfg_model.make (w_authority w) (w_opens w) (w_text w) node resolvers id (g_type g) (lists g) gr with
      | Some e => Some (NLists id e)
      | None =>
          match ModCfg_model.make node resolvers (w_replace w) (w_record w) (w_template w) (w_text w) (w_addr w) (g_type g) (g_mods g) with
          | Some e => Some (NMods id e)
          | None => option_map (NCaches id) (CacheCfg_model.make node resolvers (w_file w) (w_append w) (w_compile w) (w_first w) (g_type g) (caches g))
          end
      end
  end.
(** main.go:1090-1107, one turn of the loop; [i] stands for the resolver, the i-th of the router *)
Definition entry (i : nat) (t : route) : Router_model.routeentry :=
  Router_model.RouteEntry (Router_model.RouteCfg (t_name t) (t_class t) (t_types t) (t_weekdays t) (t_before t) (t_after t) (t_source t) (t_ecs t)
    (t_dohpath t) (t_listener t) (t_tls t) i) (t_type t) (t_invert t).
Fixpoint entries (i : nat) (l : list route) : list Router_model.routeentry := match l with [] => [] | t :: l' => entry i t :: entries (S i) l' end.
(** main.go:1088-1108 instantiateRouter *)
Definition instantiateRouter (id : string) (l : list route) (m : table node) : option node :=
  match ModCfg_model.lookup_all node (fun n => get n m) (map t_resolver l) with
  | None => None
  | Some to => option_map (fun rs => NRouter id rs to) (Router_model.instantiateRouter (w_match w) (w_addr w) (w_type w) (entries 0 l))
  end.
(** main.go:261-275: the element of a name; [boot] is the resolver behind net.DefaultResolver *)
Definition inst (p : program) (boot : option (ResCfg_model.client CA Cert)) (id : string) (m : table node) : option node :=
  match find_id id (p_resolvers p), find_id id (p_groups p), find_id id (p_routers p) with
  | Some r, _, _ => option_map (NResolver id) (ResCfg_model.instantiateResolver CA Cert (w_res w boot) r)
  | None, Some g, _ => instantiateGroup id g m
  | None, None, Some l => instantiateRouter id l m
  | None, None, None => None
  end.

(** main.go:215-242: the nodes, and what their edges come from *)
Definition aux_of (g : group) : list string :=
  [ListCfg_model.g_allowlistResolver (g_lists g); ListCfg_model.g_blocklistResolver (g_lists g); ModCfg_model.s_limitResolver (g_mods g); ModCfg_model.s_retryResolver (g_mods g)].
Definition vertices (p : program) : list (string * value) :=
  map (fun r => (fst r, VResolver)) (p_resolvers p) ++ map (fun g => (fst g, VGroup (resolvers_of (snd g)) (aux_of (snd g)))) (p_groups p) ++
  map (fun r => (fst r, VRouter (map t_resolver (snd r)))) (p_routers p).

(** main.go:256-281, as in Config_model.v *)
Section LOOP.
Variable make : string -> table node -> option node.
Fixpoint round (leaves V : list string) (E : list edge) (m : table node) (built : list string) : option (list string * list edge * table node * list string) :=
  match leaves with
  | [] => Some (V, E, m, built)
  | id :: leaves' =>
      match make id m with
      | None => None
      | Some o => round leaves' (filter (fun x => negb (String.eqb x id)) V) (filter (fun e => negb (String.eqb (fst e) id) && negb (String.eqb (snd e) id)) E) ((id, o) :: m) (built ++ [id])
      end
  end.
Variable ord : nat -> list string -> list string.
(** None: the loop never ends *)
Fixpoint rounds (fuel : nat) (V : list string) (E : list edge) (m : table node) (built : list string) : option (option (table node * list string)) :=
  match V with
  | [] => Some (Some (m, built))
  | _ => match fuel with
         | O => None
         | S fuel' => match round (ord fuel (filter (leaf E) V)) V E m built with
                      | None => Some None
                      | Some (V', E', m', built') => rounds fuel' V' E' m' built'
                      end
         end
  end.
End LOOP.

(** main.go:283-441. [rnd]: the random octets a listener gets *)
Definition pending := LCfg_model.pending node CA Cert Key.
Definition lworld (R : Type) (resolver : string -> option R) : LCfg_model.world R CA Cert Key :=
  LCfg_model.World resolver (w_addr w) (w_url w) (w_ip w) (w_udp w) (w_pem w) (w_load w) (w_hex w) (w_pair w).
Fixpoint listeners (rnd : string -> option bytes) (m : table node) (l : list (string * LCfg_model.settings)) : option (list pending) :=
  match l with
  | [] => Some []
  | (id, s) :: l' =>
      match LCfg_model.instantiateListener node CA Cert Key (lworld node (fun n => get n m)) id s (rnd id) with
      | None => None
      | Some p => option_map (cons p) (listeners rnd m l')
      end
  end.

(** main.go:782-792: a cache with a backend in memory is to be closed *)
Definition closes (p : program) (id : string) : bool :=
  match find_id id (p_resolvers p), find_id id (p_groups p) with
  | None, Some g => String.eqb (g_type g) "cache" && match CacheCfg_model.c_backend (g_caches g) with Some b => String.eqb (CacheCfg_model.b_type b) "memory" | None => false end
  | _, _ => false
  end.

(** [Started]: resolvers, the listeners, and the groups in onClose in its order *)
Inductive outcome := Error | Hangs | Started (m : table node) (ls : list pending) (onClose : list string).
(** main.go:194-441. [es]: the edges in the order in which they are added, [ord]: the order of the maps of leaves *)
Definition begin (ord : nat -> list string -> list string) (rnd : string -> option bytes) (p : program) (es : list edge) : outcome :=
  match (if String.eqb (ResCfg_model.r_address (p_boot p)) "" then Some None
         else option_map Some (ResCfg_model.instantiateResolver CA Cert (w_res w None) (p_boot p))) with
  | None => Error
  | Some boot =>
      match addVertices (vertices p) [] with
      | None => Error
      | Some V =>
          match addEdges V es [] with
          | None => Error
          | Some E =>
              match rounds (inst p boot) ord (length V) V E (match boot with Some c => [("bootstrap-resolver"%string, NResolver "bootstrap-resolver" c)] | None => [] end) [] with
              | None => Hangs
              | Some None => Error
              | Some (Some (m, built)) => match listeners rnd m (p_listeners p) with None => Error | Some ls => Started m ls (filter (closes p) built) end
              end
          end
      end
  end.

(** main.go:142-157 slogLevel: whether there is one *)
Definition slogLevel (n : N) : bool := N.leb n 6.
(** config.go:263-285 loadConfig, loadFile *)
Fixpoint load (files : list string) : option string :=
  match files with
  | [] => Some ""%string
  | f :: l => match w_open w f, load l with Some s, Some t => Some (s ++ String "010" t)%string | _, _ => None end
  end.
Inductive run := Fails | Version | Runs (p : program) | RunsFDServer (path : string) (unrestricted : bool) (mode : N).
(** main.go:174-198 start up to the configuration *)
Definition start (logLevel : N) (version : bool) (args : list string) : run :=
  if negb (slogLevel logLevel) then Fails
  else if version then Version
  else match args with
       | [] => Fails
       | _ => match load args with
              | None => Fails
              | Some s => match w_toml w s with None => Fails | Some p => Runs p end
              end
       end.
(** strconv.ParseUint(s, 8, 32) *)
Fixpoint octal (acc : N) (s : string) : option N :=
  match s with
  | EmptyString => Some acc
  | String c s' => let d := N_of_ascii c in
      if (N.leb 48 d && N.leb d 55)%bool then let n := (acc * 8 + (d - 48))%N in if N.leb n 4294967295 then octal n s' else None else None
  end.
Definition parseUint8 (s : string) : option N := match s with EmptyString => None | _ => octal 0 s end.
(** main.go:109-139 runFDServer; xsocketserver_linux.go:114: a mode of 0 is not set *)
Definition runFDServer (logLevel : N) (mode : string) (unrestricted : bool) (path : string) : run :=
  if negb (slogLevel logLevel) then Fails
  else if String.eqb mode "" then RunsFDServer path unrestricted 0
  else match parseUint8 mode with
       | None => Fails
       | Some m => if N.ltb 511 m then Fails else RunsFDServer path unrestricted m
       end.
End START.
