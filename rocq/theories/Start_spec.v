(** When a configuration is to be accepted, and what a running program is to consist of. Of the model the types and the names of settings are
    used; the parts have the meaning of C26, C87, C88, C89, C90 and C91. *)
From Verif Require Import Base Bytes Dns Net Cidr_spec Net_spec Router_spec.
From Verif Require ListCfg_model ListCfg_spec ModCfg_model ModCfg_spec CacheCfg_model CacheCfg_spec ResCfg_model ResCfg_spec LCfg_model LCfg_spec Router_model.
From Verif Require Import Config_model Start_model.
From Coq Require Import Relations.
Local Open Scope string_scope.

Definition names (p : program) : list string := map fst (p_resolvers p) ++ map fst (p_groups p) ++ map fst (p_routers p).
(** The names in the settings of a group, and of a router *)
Definition mentions (g : group) (n : string) : Prop :=
  In n (resolvers_of g) \/ n = ListCfg_model.g_allowlistResolver (g_lists g) \/ n = ListCfg_model.g_blocklistResolver (g_lists g) \/
  n = ModCfg_model.s_limitResolver (g_mods g) \/ n = ModCfg_model.s_retryResolver (g_mods g).
Inductive uses (p : program) (a n : string) : Prop :=
| Uses_group g : In (a, g) (p_groups p) -> mentions g n -> n <> "" -> uses p a n
| Uses_route l t : In (a, l) (p_routers p) -> In t l -> t_resolver t = n -> n <> "" -> uses p a n.
(** No name is there twice *)
Definition once (g : group) : Prop :=
  NoDup (filter (fun x => negb (String.eqb x ""))
    (resolvers_of g ++ [ListCfg_model.g_allowlistResolver (g_lists g); ListCfg_model.g_blocklistResolver (g_lists g); ModCfg_model.s_limitResolver (g_mods g); ModCfg_model.s_retryResolver (g_mods g)])).
(** The edges of the graph, in any order *)
Definition edges (p : program) (es : list (string * string)) : Prop := Permutation es (flat_map edges_of (vertices p)).
Definition any_order (ord : nat -> list string -> list string) : Prop := forall n l, Permutation (ord n l) l.

Section S.
Context {CA Cert Key : Type}.
Variable w : world CA Cert Key.

(** The surroundings of the parts, with a table of elements; [R] are the elements *)
Definition mworld {R} (T : string -> option R) (answer : R -> msg -> client -> result) (random : N -> N) (probes : string -> list rr -> list (nat * bool)) (class type : N -> string) : ModCfg_spec.world R :=
  ModCfg_spec.World R T answer (w_replace w) (w_record w) (w_template w) (w_text w) (w_addr w) random probes class type.
Definition cworld {R} (T : string -> option R) : CacheCfg_spec.world R := CacheCfg_spec.World R T (w_file w) (w_append w) (w_compile w) (w_first w).
Definition lenv {R} (T : string -> option R) (names : ListCfg_model.db -> msg -> option Lists_model.mres) (addrs : ListCfg_model.db -> bytes -> option (string * string))
    (answer : R -> msg -> client -> result) (kv : N -> string) (rnd : N) : ListCfg_spec.env R :=
  ListCfg_spec.Env R (w_authority w) (w_opens w) (w_text w) T names addrs answer kv rnd.

(** *** Which configurations are accepted *)
(** The names that there are, as elements without contents *)
Definition known (l : list string) (n : string) : option unit := if in_dec string_dec n l then Some tt else None.
Definition mknown (p : program) : ModCfg_spec.world unit := mworld (known (names p)) (fun _ _ _ => Err "") (fun _ => 0%N) (fun _ _ => []) (fun _ => "") (fun _ => "").
(** The source of a list: what net/url takes, with no scheme or one of these two *)
Definition source_ok (l : ListCfg_model.listcfg) : Prop :=
  exists sch, ListCfg_model.url_parse (w_authority w) (ListCfg_model.l_source l) = Some sch /\ In sch [""; "http"; "https"].
(** The lists of a setting can be loaded: the rules in the configuration or the sources, not both (C87) *)
Definition loads (fmt : string -> ListCfg_model.format -> Prop) (name f : string) (rules : list string) (src : list ListCfg_model.listcfg) : Prop :=
  Forall source_ok src /\ exists L, ListCfg_spec.in_force fmt name f rules src L /\ Forall (fun d => w_opens w d = true) L.
Definition text_ok (g : group) : Prop :=
  (ModCfg_model.s_edeCode (g_mods g) = 0%N /\ ModCfg_model.s_edeText (g_mods g) = "") \/ w_text w (ModCfg_model.s_edeText (g_mods g)) <> None.
Definition lists_ok (p : program) (id : string) (g : group) : Prop :=
  let l := g_lists g in
  let addr := ListCfg_spec.addr_format (ListCfg_model.g_locationDB l) in
  let block fmt name := loads fmt name (ListCfg_model.g_blocklistFormat l) (ListCfg_model.g_blocklist l) (ListCfg_model.g_blocklistSource l) in
  (exists n, resolvers_of g = [n] /\ In n (names p)) /\
  ((g_type g = "blocklist" /\
      ((ListCfg_model.g_blocklist l <> [] /\ ListCfg_model.g_source l = "" /\ loads ListCfg_spec.name_format id (ListCfg_model.g_format l) (ListCfg_model.g_blocklist l) []) \/
       (ListCfg_model.g_blocklist l = [] /\
          loads ListCfg_spec.name_format id (ListCfg_model.g_format l) [] [ListCfg_model.ListCfg id (ListCfg_model.g_format l) (ListCfg_model.g_source l) "" false]))) \/
   (g_type g = "blocklist-v2" /\ block ListCfg_spec.name_format id /\
      loads ListCfg_spec.name_format "" (ListCfg_model.g_blocklistFormat l) (ListCfg_model.g_allowlist l) (ListCfg_model.g_allowlistSource l) /\ text_ok g) \/
   (In (g_type g) ["response-blocklist-ip"; "response-blocklist-cidr"] /\ block addr id /\ text_ok g) \/
   (g_type g = "response-blocklist-name" /\ block ListCfg_spec.name_format "") \/
   (g_type g = "client-blocklist" /\ block addr id)).
Definition group_ok (p : program) (id : string) (g : group) : Prop :=
  lists_ok p id g \/ ModCfg_spec.startable (mknown p) (g_type g) (g_mods g) \/ CacheCfg_spec.startable (cworld (known (names p))) (caches g) (g_type g).
Definition time_ok (s : string) : Prop := s = "" \/ exists h m, time_text s h m.
Definition net_ok (s : string) : Prop := s = "" \/ exists a b, net_text (w_addr w) s a b.
Definition route_ok (p : program) (t : route) : Prop :=
  In (t_resolver t) (names p) /\ (forall y, In y (t_types t) \/ (t_type t = y /\ y <> "") -> w_type w (upper y) <> None) /\
  (t_class t = "" \/ exists c, class_text (t_class t) c) /\ (forall d, In d (t_weekdays t) -> exists n, day_text d n) /\ time_ok (t_before t) /\ time_ok (t_after t) /\
  net_ok (t_source t) /\ net_ok (t_ecs t) /\ (forall e, In e [t_name t; t_dohpath t; t_listener t; t_tls t] -> w_match w e <> None).
(** The bootstrap resolver, if there is one *)
Definition booted (p : program) (b : option (ResCfg_model.client CA Cert)) : Prop :=
  (ResCfg_model.r_address (p_boot p) = "" /\ b = None) \/
  (ResCfg_model.r_address (p_boot p) <> "" /\ exists c, ResCfg_spec.made (w_res w None) (p_boot p) = Some c /\ b = Some c).
Definition served_names (p : program) : list string := names p ++ (if String.eqb (ResCfg_model.r_address (p_boot p)) "" then [] else ["bootstrap-resolver"]).
Definition listener_ok (p : program) (l : LCfg_model.settings) (rnd : option bytes) : Prop :=
  let u := lworld CA Cert Key w unit (known (served_names p)) in
  LCfg_spec.acceptable u l /\ (~ LCfg_spec.named l -> LCfg_spec.makeable u l rnd).
Record acceptable (p : program) (rnd : string -> option bytes) : Prop := {
  a_names : NoDup (names p);
  a_uses : forall a n, uses p a n -> In n (names p);
  a_acyclic : forall a, ~ clos_trans _ (uses p) a a;
  a_once : forall id g, In (id, g) (p_groups p) -> once g;
  a_resolvers : exists b, booted p b /\ forall id r, In (id, r) (p_resolvers p) -> ResCfg_spec.made (w_res w b) r <> None;
  a_groups : forall id g, In (id, g) (p_groups p) -> group_ok p id g;
  a_routers : forall id l t, In (id, l) (p_routers p) -> In t l -> route_ok p t;
  a_listeners : forall id l, In (id, l) (p_listeners p) -> listener_ok p l (rnd id) }.

(** *** What runs *)
Definition Node := node CA Cert.
(** The element of a name is the one its settings make of the elements in the table *)
Definition made_resolver (T : string -> option Node) (b : option (ResCfg_model.client CA Cert)) (id : string) (r : ResCfg_model.settings) : Prop :=
  exists c, T id = Some (NResolver _ _ id c) /\ ResCfg_spec.made (w_res w b) r = Some c.
Definition made_group (T : string -> option Node) (id : string) (g : group) : Prop :=
  exists gr, Forall2 (fun n x => T n = Some x) (resolvers_of g) gr /\
  ((exists e, T id = Some (NLists _ _ id e) /\ forall nm ad an kv rnd, ListCfg_spec.built (lenv T nm ad an kv rnd) id (g_type g) (lists g) gr = Some e) \/
   (exists e, T id = Some (NMods _ _ id e) /\ forall an rn pr cl ty, ModCfg_spec.made (mworld T an rn pr cl ty) (g_type g) (g_mods g) = Some e) \/
   (exists e, T id = Some (NCaches _ _ id e) /\ CacheCfg_spec.made (cworld T) (g_type g) (caches g) = Some e)).
Definition made_router (T : string -> option Node) (id : string) (l : list route) : Prop :=
  exists to rs, Forall2 (fun n x => T n = Some x) (map t_resolver l) to /\ T id = Some (NRouter _ _ id rs to) /\
  exists en, Router_model.instantiateRouter (w_match w) (w_addr w) (w_type w) en = Some rs /\ length en = length l /\
    forall i t, nth_error l i = Some t -> exists e, nth_error en i = Some e /\ Router_model.re_type e = t_type t /\ Router_model.re_invert e = t_invert t /\
      Router_model.re_cfg e = Router_model.RouteCfg (t_name t) (t_class t) (t_types t) (t_weekdays t) (t_before t) (t_after t) (t_source t) (t_ecs t) (t_dohpath t) (t_listener t) (t_tls t) i.

(** The elements that an element can ask *)
Definition some {A} (o : option A) : list A := match o with Some x => [x] | None => [] end.
Definition holds (n : Node) : list Node :=
  match n with
  | NResolver _ _ _ _ => []
  | NLists _ _ _ e => ListCfg_model.e_up _ e :: some (ListCfg_model.e_blockRes _ e) ++ some (ListCfg_model.e_allowRes _ e)
  | NMods _ _ _ e =>
      match e with
      | ModCfg_model.ERoundRobin _ gr | ModCfg_model.EFailRotate _ gr _ _ | ModCfg_model.EFailBack _ gr _ _ _ | ModCfg_model.EFastest _ gr
      | ModCfg_model.ELoadBalance _ gr _ _ _ | ModCfg_model.ERandom _ gr _ _ _ => gr
      | ModCfg_model.ETruncate _ up retry => [up; retry]
      | ModCfg_model.ERate _ up _ limit => up :: some limit
      | ModCfg_model.EReplace _ up _ | ModCfg_model.ETTL _ up _ _ _ | ModCfg_model.EDedup _ up | ModCfg_model.EFastestTCP _ up _ _ _ | ModCfg_model.EECS _ up _
      | ModCfg_model.EEDNS0 _ up _ | ModCfg_model.EMinimize _ up | ModCfg_model.ECollapse _ up _ | ModCfg_model.EDNS64 _ up _ => [up]
      | ModCfg_model.EStatic _ _ _ | ModCfg_model.ETemplate _ _ _ _ _ _ _ | ModCfg_model.EDrop _ => []
      end
  | NCaches _ _ _ e =>
      match e with
      | CacheCfg_model.ECache _ up _ _ _ | CacheCfg_model.EPrefetching _ up _ _ _ _ | CacheCfg_model.ESyslog _ up _ _ _ _ _ | CacheCfg_model.EQueryLog _ up _ _
      | CacheCfg_model.EValidator _ up _ _ _ => [up]
      | CacheCfg_model.ELua _ gr _ _ _ => gr
      end
  | NRouter _ _ _ _ to => to
  end.
Definition id_of (n : Node) : string :=
  match n with NResolver _ _ id _ => id | NLists _ _ id _ => id | NMods _ _ id _ => id | NCaches _ _ id _ => id | NRouter _ _ id _ _ => id end.
Definition reaches : Node -> Node -> Prop := clos_refl_trans _ (fun a b => In b (holds a)).
(** The element [x] sends something to [y] for a query, with whatever lists, answers and times; what keeps state may ask any of its own *)
Inductive asks (T : string -> option Node) (q : msg) (ci : client) : Node -> Node -> Prop :=
| Asks_lists id e y nm ad an kv rnd l r : ListCfg_spec.ask (lenv T nm ad an kv rnd) e q ci = Some (l, r) -> In y l -> asks T q ci (NLists _ _ id e) y
| Asks_mods id e y an rn pr cl ty l r q' : ModCfg_spec.does (mworld T an rn pr cl ty) e q ci = Some (l, r) -> In (y, q') l -> asks T q ci (NMods _ _ id e) y
| Asks_members id e y : In y (ModCfg_model.members _ e) -> asks T q ci (NMods _ _ id e) y
| Asks_limit id e y ip h : In (Some (Some y)) (ModCfg_model.rate _ ip e h) -> asks T q ci (NMods _ _ id e) y
| Asks_dedup id y : asks T q ci (NMods _ _ id (ModCfg_model.EDedup _ y)) y
| Asks_caches id e y : In y (holds (NCaches _ _ id e)) -> asks T q ci (NCaches _ _ id e) y
| Asks_router id rs to an now l r i q' y : Router_model.router_resolve an now rs q ci = Some (l, r) -> In (i, q') l -> nth_error to i = Some y -> asks T q ci (NRouter _ _ id rs to) y.
(** The i-th route of a router takes the query (C26) *)
Definition taken (now : nat -> Router_model.localtime) (q : msg) (ci : client) (x : question) (i : nat) (t : route) : Prop :=
  let C := conditions (w_match w) (w_addr w) (w_type w) (t_types t ++ (if String.eqb (t_type t) "" then [] else [t_type t]))%list (t_class t) (t_name t) (t_source t) (t_ecs t) (t_dohpath t) (t_listener t) (t_tls t)
    (t_weekdays t) (t_before t) (t_after t) (Router_model.lt_weekday (now i)) (Router_model.lt_hour (now i)) (Router_model.lt_minute (now i)) x q ci in
  if t_invert t then ~ C else C.

(** *** Command line *)
(** The files one after the other, each with a line break at its end *)
Inductive texts : list string -> string -> Prop :=
| Texts_nil : texts [] ""
| Texts_cons f l s t : w_open w f = Some s -> texts l t -> texts (f :: l) (s ++ String "010" t).
End S.

(** The value of octal digits *)
Inductive octal_text : string -> N -> Prop :=
| Octal_one d : (d < 8)%N -> octal_text (String (ascii_of_N (48 + d)) "") d
| Octal_more s n d : (d < 8)%N -> octal_text s n -> octal_text (s ++ String (ascii_of_N (48 + d)) "") (8 * n + d).
(** The same settings, in another order *)
Definition shuffled (p p' : program) : Prop :=
  p_boot p = p_boot p' /\ Permutation (p_resolvers p) (p_resolvers p') /\ Permutation (p_groups p) (p_groups p') /\ Permutation (p_routers p) (p_routers p') /\
  Permutation (p_listeners p) (p_listeners p').
(** A cache that is to be closed when the program ends, which saves its contents if there is a file for them (C77) *)
Definition kept_on_disk (p : program) (id : string) : Prop :=
  exists g b, In (id, g) (p_groups p) /\ g_type g = "cache" /\ CacheCfg_model.c_backend (g_caches g) = Some b /\ CacheCfg_model.b_type b = "memory".
