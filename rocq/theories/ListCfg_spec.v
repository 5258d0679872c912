(** What a user expects of the settings of groups with lists: doc/configuration.md, Query Blocklist, Response Blocklist, Client Blocklist. *)
From Verif Require Import Base Bytes Dns Cidr_spec Net_spec Modifiers_spec Lists_model Blocklist_model Blocklist_spec ListCfg_model.
Local Open Scope string_scope.
Local Open Scope list_scope.

(** *** Sources *)
Definition absent (c : ascii) (s : string) : Prop := ~ In c (list_ascii_of_string s).
(** No control bytes, and no percent signs *)
Definition clean (s : string) : Prop := forall c, In c (list_ascii_of_string s) -> (32 <= N_of_ascii c)%N /\ N_of_ascii c <> 127%N /\ c <> "%"%char.
(** A path of a file without a colon before its first slash, and which does not start with two *)
Definition local_path (p : string) : Prop :=
  clean p /\ has_prefix "//" p = false /\ exists a b, p = (a ++ b)%string /\ absent ":" a /\ (b = "" \/ exists b', b = String "/" b').
Definition http_name (s : string) : Prop := lower s = "http" \/ lower s = "https".
(** A URL with a host part that is all right *)
Definition web (authority : string -> bool) (u : string) : Prop :=
  exists s h tl, u = (s ++ "://" ++ h ++ tl)%string /\ http_name s /\ clean u /\ absent "/" h /\ absent "?" h /\ absent "#" h /\
    (tl = "" \/ exists c tl', tl = String c tl' /\ (c = "/" \/ c = "?" \/ c = "#")%char) /\ authority h = true.
Definition http_like (u : string) : Prop := exists s r, u = (s ++ String ":" r)%string /\ http_name s.

(** *** Lists *)
Inductive name_format : string -> format -> Prop :=
| nf_default : name_format "" Regexp
| nf_regexp : name_format "regexp" Regexp
| nf_domain : name_format "domain" Domain
| nf_sub : name_format "domain-subdomain" DomainSubdomain
| nf_hosts : name_format "hosts" Hosts
| nf_mac : name_format "mac" Mac.
Inductive addr_format (file : string) : string -> format -> Prop :=
| af_default : addr_format file "" Cidr
| af_cidr : addr_format file "cidr" Cidr
| af_location : addr_format file "location" (Location file)
| af_asn : addr_format file "asn" (Asn file).
(** Where the rules of a configured list come from *)
Definition comes_from (l : listcfg) (r : reader) : Prop :=
  (http_like (l_source l) /\ r = HTTPLoader (l_source l) (l_cacheDir l) (l_allowFailure l)) \/
  (~ http_like (l_source l) /\ r = FileLoader (l_source l) (l_allowFailure l)).
Definition list_of (fmt : string -> format -> Prop) (l : listcfg) (d : db) : Prop :=
  fmt (l_format l) (d_format d) /\ comes_from l (d_reader d) /\
  (l_name l <> "" -> d_name d = l_name l) /\ (l_name l = "" -> d_name d = l_source l).
(** The lists of a group, in their order: the rules in the configuration, or the sources, not both *)
Inductive in_force (fmt : string -> format -> Prop) (name f : string) : list string -> list listcfg -> list db -> Prop :=
| if_static : forall rules fm, rules <> [] -> fmt f fm -> in_force fmt name f rules [] [Db name fm (StaticLoader rules)]
| if_sources : forall src L, Forall2 (list_of fmt) src L -> in_force fmt name f [] src L.

(** *** Queries *)
Definition listing (names : db -> msg -> option mres) (q : msg) (d : db) : Prop := exists m, names d q = Some m /\ mr_ok m = true.
(** The first of the lists that has the query, and what it says *)
Definition first_listing (names : db -> msg -> option mres) (q : msg) (L : list db) (m : mres) : Prop :=
  exists pre d post, L = pre ++ d :: post /\ (forall x, In x pre -> ~ listing names q x) /\ names d q = Some m /\ mr_ok m = true.
(** Matching does not panic; what it returns is complete *)
Definition fine (names : db -> msg -> option mres) (q : msg) (L : list db) : Prop :=
  forall d, In d L -> exists m, names d q = Some m /\ (mr_ok m = true -> mr_match m <> None) /\ Forall (fun ip => ip = [] \/ Cidr_spec.ip_ok ip) (mr_ips m).
Definition addr_listed (addrs : db -> bytes -> option (string * string)) (L : list db) (ip : bytes) : Prop := exists d m, In d L /\ addrs d ip = Some m.
(** The extended error of the configuration: nothing, or code and text *)
Definition extended (newTemplate : string -> option (msg -> option (string * string) -> option string)) (code : N) (text : string)
    (E : option (N * (msg -> option (string * string) -> option string))) : Prop :=
  (code = 0%N /\ text = "" /\ E = None) \/ (~ (code = 0%N /\ text = "") /\ exists f, newTemplate text = Some f /\ E = Some (code, f)).
(** The query asks for names, and the list has some *)
Definition names_given (x : question) (m : mres) : Prop := q_type x = 12%N /\ mr_names m <> [].
(** The reply to a query that is on a list *)
Definition blocked_reply (E : option (N * (msg -> option (string * string) -> option string))) (q : msg) (x : question) (m : mres) (a : msg) : Prop :=
  (names_given x m -> reply q 0 (map (fun n => ptr_record x (fqdn n)) (firstn 10 (mr_names m))) [] a) /\
  (~ names_given x m -> exists l, spoofed x (mr_ips m) l /\ (l <> [] -> reply q 0 l [] a) /\ (l = [] -> reply q 3 [] (error_records E q (mr_match m)) a)).
(** What happens to a query: [out] is who is asked and the result. Lists A allow and B block; the resolvers for queries on them, if there are any *)
Definition query_blocking {R : Type} (names : db -> msg -> option mres) (resolve : R -> msg -> client -> Dns.result) (up : R) (A B : list db) (allowRes blockRes : option R)
    (E : option (N * (msg -> option (string * string) -> option string))) (q : msg) (ci : client) (x : question) (out : option (list R * Dns.result)) : Prop :=
  ((exists d, In d A /\ listing names q d) -> let r := match allowRes with Some r => r | None => up end in out = Some ([r], resolve r q ci)) /\
  ((forall d, In d (A ++ B) -> ~ listing names q d) -> out = Some ([up], resolve up q ci)) /\
  (forall m, (forall d, In d A -> ~ listing names q d) -> first_listing names q B m ->
    match blockRes with
    | Some r => (~ names_given x m -> out = Some ([r], resolve r q ci)) /\
                (names_given x m -> exists a, out = Some ([], Ans a) /\ blocked_reply E q x m a)
    | None => exists a, out = Some ([], Ans a) /\ blocked_reply E q x m a
    end).
(** What happens to a response: [a] is that of the upstream resolver, [bad] tells which records the lists object to; [rule] says what an extended error may report *)
Definition response_blocking {R : Type} (resolve : R -> msg -> client -> Dns.result) (up : R) (blockRes : option R) (bad : rr -> Prop)
    (err : list rr -> Prop) (q : msg) (ci : client) (a : msg) (out : option (list R * Dns.result)) : Prop :=
  ((forall r, In r (records a) -> ~ bad r) -> out = Some ([up], Ans a)) /\
  ((exists r, In r (records a) /\ bad r) ->
    match blockRes with
    | Some r => out = Some ([up; r], resolve r q ci)
    | None => exists m ex, out = Some ([up], Ans m) /\ reply q 3 [] ex m /\ err ex
    end).
(** The same with filter: the records are removed, the response is replaced only if there is no answer left *)
Definition response_filtering {R : Type} (resolve : R -> msg -> client -> Dns.result) (up : R) (blockRes : option R) (bad : rr -> Prop)
    (q : msg) (ci : client) (a : msg) (out : option (list R * Dns.result)) : Prop :=
  forall an ns ex, without bad (m_answer a) an -> without bad (m_ns a) ns -> without bad (m_extra a) ex ->
  (an <> [] -> out = Some ([up], Ans (set_extra ex (set_ns ns (set_answer an a))))) /\
  (an = [] -> match blockRes with
              | Some r => out = Some ([up; r], resolve r q ci)
              | None => exists m, out = Some ([up], Ans m) /\ reply q 3 [] [] m
              end).
(** Texts in records that name lists object to; [id] is the ID of the query the lists are given *)
Definition bad_text (names : db -> msg -> option mres) (kv : N -> string) (id : N) (L : list db) (inverted : bool) (r : rr) : Prop :=
  exists s, text_of kv r s /\ let q := text_query id s in if inverted then forall d, In d L -> ~ listing names q d else exists d, In d L /\ listing names q d.
(** What the extended error of a response may report: a rule of one of the lists *)
Definition says (addrs : db -> bytes -> option (string * string)) (E : option (N * (msg -> option (string * string) -> option string))) (L : list db) (q : msg) (ex : list rr) : Prop :=
  exists rule, ex = error_records E q rule /\ forall m, rule = Some m -> exists d ip, In d L /\ addrs d ip = Some m.

(** *** All that is outside the model *)
Record env (R : Type) := Env {
  w_authority : string -> bool; w_opens : db -> bool; w_template : string -> option (msg -> option (string * string) -> option string); w_resolvers : string -> option R;
  w_names : db -> msg -> option mres; w_addrs : db -> bytes -> option (string * string); w_resolve : R -> msg -> client -> Dns.result; w_kv : N -> string; w_rnd : N }.
Arguments w_authority {R}. Arguments w_opens {R}. Arguments w_template {R}. Arguments w_resolvers {R}. Arguments w_names {R}. Arguments w_addrs {R}.
Arguments w_resolve {R}. Arguments w_kv {R}. Arguments w_rnd {R}.
Definition built {R} (w : env R) (id type : string) (g : group) (gr : list R) : option (element R) :=
  make (w_authority w) (w_opens w) (w_template w) R (w_resolvers w) id type g gr.
Definition ask {R} (w : env R) (e : element R) (q : msg) (ci : client) : option (list R * Dns.result) :=
  element_resolve R (w_names w) (w_addrs w) (w_resolve w) (w_kv w) (w_rnd w) e q ci.
Definition usable_source {R} (w : env R) (l : listcfg) : Prop := local_path (l_source l) \/ web (w_authority w) (l_source l).
Definition all_open {R} (w : env R) (L : list db) : Prop := forall d, In d L -> w_opens w d = true.
(** What a group of the first type has: rules, or one source *)
Definition one_source (id : string) (g : group) : list listcfg := match g_blocklist g with [] => [plain_list id (g_format g) (g_source g)] | _ => [] end.
Definition ip_type (type : string) : Prop := type = "response-blocklist-ip" \/ type = "response-blocklist-cidr".
