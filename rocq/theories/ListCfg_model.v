(** The groups with lists as main.go builds them: cmd/routedns/main.go:525-605, 834-956 (instantiateGroup) and 1110-1195 (newBlocklistDB,
    newIPBlocklistDB), with the part of net/url's Parse that decides what kind of source a list has. *)
From Verif Require Import Base Bytes Dns Lists_model Geo_model Blocklist_model.
Local Open Scope bool_scope.

(** *** net/url *)
(** strings.Cut: up to the first c, and what comes after it if there is one *)
Fixpoint cut (c : ascii) (s : string) : string * option string :=
  match s with
  | EmptyString => (EmptyString, None)
  | String x s' => if Ascii.eqb x c then (EmptyString, Some s') else let r := cut c s' in (String x (fst r), snd r)
  end.
Definition between (a x b : N) : bool := ((a <=? x) && (x <=? b))%N.
Definition alpha (c : ascii) : bool := let n := N_of_ascii c in between 65 n 90 || between 97 n 122.
(** Digits, plus, minus, dot *)
Definition digitlike (c : ascii) : bool :=
  let n := N_of_ascii c in between 48 n 57 || (n =? 43)%N || (n =? 45)%N || (n =? 46)%N.
(** getScheme. BadScheme: the first byte is a colon *)
Inductive scheme := NoScheme | BadScheme | Scheme (s rest : string).
Fixpoint scan_scheme (s : string) : option (string * string) :=
  match s with
  | EmptyString => None
  | String c s' =>
      if Ascii.eqb c ":" then Some (EmptyString, s')
      else if alpha c || digitlike c then option_map (fun r => (String c (fst r), snd r)) (scan_scheme s')
      else None
  end.
Definition getScheme (s : string) : scheme :=
  match s with
  | EmptyString => NoScheme
  | String c _ => if digitlike c then NoScheme else if Ascii.eqb c ":" then BadScheme
                  else match scan_scheme s with Some (a, r) => Scheme a r | None => NoScheme end
  end.
(** unescape, as far as paths and fragments go: every percent sign is followed by two hexadecimal digits *)
Definition ishex (c : ascii) : bool := let n := N_of_ascii c in between 48 n 57 || between 65 n 70 || between 97 n 102.
Fixpoint escapes_ok (s : string) : bool :=
  match s with
  | EmptyString => true
  | String c s' => if Ascii.eqb c "%" then match s' with String a (String b s2) => ishex a && ishex b && escapes_ok s2 | _ => false end
                   else escapes_ok s'
  end.
(** stringContainsCTLByte *)
Fixpoint has_ctl (s : string) : bool :=
  match s with EmptyString => false | String c s' => ((N_of_ascii c <? 32) || (N_of_ascii c =? 127))%N || has_ctl s' end.
Section CFG.
(** parseAuthority: is the part between // and the next slash accepted *)
Variable authority : string -> bool.
(** parse, from the authority on: is there no error *)
Definition parse_rest (hasScheme : bool) (rest : string) : bool :=
  if (hasScheme || negb (has_prefix "///" rest)) && has_prefix "//" rest then
    match rest with
    | String _ (String _ r) => authority (fst (cut "/" r)) && match snd (cut "/" r) with Some p => escapes_ok p | None => true end
    | _ => true
    end
  else escapes_ok rest.
(** parse(u, false): the scheme *)
Definition parse_main (u : string) : option string :=
  if has_ctl u then None
  else if String.eqb u "*" then Some EmptyString
  else match getScheme u with
       | BadScheme => None
       | Scheme s r =>
           let rest := fst (cut "?" r) in
           if has_prefix "/" rest then if parse_rest true rest then Some (lower s) else None else Some (lower s)
       | NoScheme =>
           let rest := fst (cut "?" u) in
           if negb (has_prefix "/" rest) && contains ":" (fst (cut "/" rest)) then None
           else if parse_rest false rest then Some EmptyString else None
       end.
(** Parse *)
Definition url_parse (raw : string) : option string :=
  let '(u, frag) := cut "#" raw in
  match parse_main u, frag with
  | Some s, Some f => if escapes_ok f then Some s else None
  | r, _ => r
  end.

(** *** One list *)
(** config.go:235-241 *)
Record listcfg := ListCfg { l_name : string; l_format : string; l_source : string; l_cacheDir : string; l_allowFailure : bool }.
Inductive reader := StaticLoader (rules : list string) | HTTPLoader (url cacheDir : string) (allowFailure : bool) | FileLoader (path : string) (allowFailure : bool).
Inductive format := Regexp | Domain | DomainSubdomain | Hosts | Mac | Cidr | Location (db : string) | Asn (db : string).
Record db := Db { d_name : string; d_format : format; d_reader : reader }.
(** Does the constructor of the list succeed: it loads the rules, and opens the location database *)
Variable opens : db -> bool.
Definition open_db (d : db) : option db := if opens d then Some d else None.
(** main.go:1119-1139, 1164-1184 *)
Definition newLoader (l : listcfg) (rules : list string) (sch : string) : option reader :=
  match rules with
  | _ :: _ => Some (StaticLoader rules)
  | [] => if String.eqb sch "http" || String.eqb sch "https" then Some (HTTPLoader (l_source l) (l_cacheDir l) (l_allowFailure l))
          else if String.eqb sch "" then Some (FileLoader (l_source l) (l_allowFailure l))
          else None
  end.
(** main.go:1140-1153 *)
Definition nameFormat (f : string) : option format :=
  if String.eqb f "regexp" || String.eqb f "" then Some Regexp
  else if String.eqb f "domain" then Some Domain
  else if String.eqb f "domain-subdomain" then Some DomainSubdomain
  else if String.eqb f "hosts" then Some Hosts
  else if String.eqb f "mac" then Some Mac
  else None.
(** main.go:1186-1195 *)
Definition ipFormat (locationDB f : string) : option format :=
  if String.eqb f "cidr" || String.eqb f "" then Some Cidr
  else if String.eqb f "location" then Some (Location locationDB)
  else if String.eqb f "asn" then Some (Asn locationDB)
  else None.
Definition newDB (fmt : string -> option format) (l : listcfg) (rules : list string) : option db :=
  match url_parse (l_source l) with
  | None => None
  | Some sch =>
      let name := if String.eqb (l_name l) "" then l_source l else l_name l in
      match newLoader l rules sch with
      | None => None
      | Some r => match fmt (l_format l) with Some f => open_db (Db name f r) | None => None end
      end
  end.
(** main.go:1110-1153 newBlocklistDB, 1155-1195 newIPBlocklistDB *)
Definition newBlocklistDB (l : listcfg) (rules : list string) : option db := newDB nameFormat l rules.
Definition newIPBlocklistDB (l : listcfg) (locationDB : string) (rules : list string) : option db := newDB (ipFormat locationDB) l rules.
(** One list, or several by NewMultiDB (blocklistdb-multi.go:17-19), NewMultiIPDB *)
Inductive dbs := One (d : db) | Multi (l : list db).
(** The loops over BlocklistSource and AllowlistSource (main.go:563-570, 582-589, 848-855, 891-898, 927-934) *)
Fixpoint sources (new : listcfg -> option db) (l : list listcfg) : option (list db) :=
  match l with
  | [] => Some []
  | s :: l' => match new s with None => None | Some d => option_map (cons d) (sources new l') end
  end.
(** main.go:555-575, 577-594, 841-860, 884-903, 920-939 *)
Definition lists (new : listcfg -> list string -> option db) (static : listcfg) (rules : list string) (src : list listcfg) : option dbs :=
  match rules with
  | _ :: _ => option_map One (new static rules)
  | [] => option_map Multi (sources (fun s => new s []) src)
  end.

(** *** A group *)
(** config.go:142-172, the settings of groups with lists *)
Record group := Group {
  g_source : string; g_format : string; g_refresh : Z;
  g_blocklist : list string; g_blocklistFormat : string; g_blocklistSource : list listcfg; g_blocklistRefresh : Z; g_blocklistResolver : string;
  g_allowlist : list string; g_allowlistFormat : string; g_allowlistSource : list listcfg; g_allowlistRefresh : Z; g_allowlistResolver : string;
  g_locationDB : string; g_filter : bool; g_inverted : bool; g_useECS : bool; g_edeCode : N; g_edeText : string }.
(** NewTemplate (template.go): how the text is filled in, if it can be parsed *)
Variable newTemplate : string -> option (msg -> option (string * string) -> option string).
(** edns0ede.go:17-31 NewEDNS0EDETemplate: nil, a template, or an error *)
Definition newEDE (code : N) (text : string) : option (option edetemplate) :=
  if N.eqb code 0 && String.eqb text "" then Some None
  else option_map (fun t => Some (EDETemplate code t)) (newTemplate text).

Variable R : Type.
Inductive kind := QueryBlock | ResponseIP | ResponseName | ClientBlock.
Record element := El {
  e_kind : kind; e_up : R; e_block : dbs; e_allow : option dbs; e_blockRes : option R; e_allowRes : option R;
  e_blockRefresh : Z; e_allowRefresh : Z; e_filter : bool; e_inverted : bool; e_useECS : bool; e_ede : option edetemplate }.
(** time.Duration(n) * time.Second, an int64 of nanoseconds *)
Definition seconds (n : Z) : Z := ((n * 1000000000 + 9223372036854775808) mod 18446744073709551616 - 9223372036854775808)%Z.
Definition nonempty {A} (l : list A) : bool := match l with [] => false | _ => true end.
(** resolvers[id]: nil if there is none *)
Variable resolvers : string -> option R.
Definition plain_list (name fmt src : string) : listcfg := ListCfg name fmt src "" false.
(** main.go:525-543 *)
Definition make_blocklist (id : string) (g : group) (gr : list R) : option element :=
  match gr with
  | [up] =>
      if nonempty (g_blocklist g) && negb (String.eqb (g_source g) "") then None
      else match newBlocklistDB (plain_list id (g_format g) (g_source g)) (g_blocklist g) with
           | None => None
           | Some d => Some (El QueryBlock up (One d) None None None (seconds (g_refresh g)) 0 false false false None)
           end
  | _ => None
  end.
(** main.go:544-612 *)
Definition make_blocklist_v2 (id : string) (g : group) (gr : list R) : option element :=
  match gr with
  | [up] =>
      if nonempty (g_blocklist g) && nonempty (g_blocklistSource g) then None
      else if nonempty (g_allowlist g) && nonempty (g_allowlistSource g) then None
      else match lists newBlocklistDB (plain_list id (g_blocklistFormat g) "") (g_blocklist g) (g_blocklistSource g) with
      | None => None
      | Some b =>
          match lists newBlocklistDB (plain_list "" (g_blocklistFormat g) "") (g_allowlist g) (g_allowlistSource g) with
          | None => None
          | Some a =>
              match newEDE (g_edeCode g) (g_edeText g) with
              | None => None
              | Some t => Some (El QueryBlock up b (Some a) (resolvers (g_blocklistResolver g)) (resolvers (g_allowlistResolver g))
                                  (seconds (g_blocklistRefresh g)) (seconds (g_allowlistRefresh g)) false false false t)
              end
          end
      end
  | _ => None
  end.
(** main.go:834-876 *)
Definition make_response_ip (id : string) (g : group) (gr : list R) : option element :=
  match gr with
  | [up] =>
      if nonempty (g_blocklist g) && nonempty (g_blocklistSource g) then None
      else match lists (fun l => newIPBlocklistDB l (g_locationDB g)) (plain_list id (g_blocklistFormat g) "") (g_blocklist g) (g_blocklistSource g) with
      | None => None
      | Some b =>
          match newEDE (g_edeCode g) (g_edeText g) with
          | None => None
          | Some t => Some (El ResponseIP up b None (resolvers (g_blocklistResolver g)) None (seconds (g_blocklistRefresh g)) 0 (g_filter g) (g_inverted g) false t)
          end
      end
  | _ => None
  end.
(** main.go:877-912 *)
Definition make_response_name (id : string) (g : group) (gr : list R) : option element :=
  match gr with
  | [up] =>
      if nonempty (g_blocklist g) && nonempty (g_blocklistSource g) then None
      else match lists newBlocklistDB (plain_list "" (g_blocklistFormat g) "") (g_blocklist g) (g_blocklistSource g) with
      | None => None
      | Some b => Some (El ResponseName up b None (resolvers (g_blocklistResolver g)) None (seconds (g_blocklistRefresh g)) 0 false (g_inverted g) false None)
      end
  | _ => None
  end.
(** main.go:913-949 *)
Definition make_client (id : string) (g : group) (gr : list R) : option element :=
  match gr with
  | [up] =>
      if nonempty (g_blocklist g) && nonempty (g_blocklistSource g) then None
      else match lists (fun l => newIPBlocklistDB l (g_locationDB g)) (plain_list id (g_blocklistFormat g) "") (g_blocklist g) (g_blocklistSource g) with
      | None => None
      | Some b => Some (El ClientBlock up b None (resolvers (g_blocklistResolver g)) None (seconds (g_blocklistRefresh g)) 0 false false (g_useECS g) None)
      end
  | _ => None
  end.
(** The cases of main.go:525-949 for groups with lists; None: an error, or a type that has none *)
Definition make (id type : string) (g : group) (gr : list R) : option element :=
  if String.eqb type "blocklist" then make_blocklist id g gr
  else if String.eqb type "blocklist-v2" then make_blocklist_v2 id g gr
  else if String.eqb type "response-blocklist-ip" || String.eqb type "response-blocklist-cidr" then make_response_ip id g gr
  else if String.eqb type "response-blocklist-name" then make_response_name id g gr
  else if String.eqb type "client-blocklist" then make_client id g gr
  else None.

(** *** Queries *)
(** Match of one list (C01, C03, C27, C37, C38, C60 describe them), and the resolvers *)
Variable names : db -> msg -> option mres.
Variable addrs : db -> bytes -> option (string * string).
Variable resolve : R -> msg -> client -> result.
Variable kv : N -> string.
Variable rnd : N.
Definition name_match (l : dbs) : msg -> option mres := match l with One d => names d | Multi l => Lists_model.multi_match (map names l) end.
Definition addr_match (l : dbs) : bytes -> option (string * string) := match l with One d => addrs d | Multi l => Geo_model.multi_match (map addrs l) end.
(** Which resolver a field is *)
Definition asked (e : element) (t : target) : R :=
  match t with
  | Upstream => e_up e
  | AllowlistResolver => match e_allowRes e with Some r => r | None => e_up e end
  | BlocklistResolver => match e_blockRes e with Some r => r | None => e_up e end
  end.
Definition has {A} (o : option A) : bool := match o with Some _ => true | None => false end.
(** Resolve of the element: the resolvers that are asked, and the result *)
Definition element_resolve (e : element) (q : msg) (ci : client) : option (list R * result) :=
  let res t := resolve (asked e t) in
  option_map (fun r : run => (map (fun c => asked e (fst (fst c))) (fst r), snd r))
    (match e_kind e with
     | QueryBlock => blocklist_resolve res (option_map name_match (e_allow e)) (name_match (e_block e)) (has (e_allowRes e)) (has (e_blockRes e)) (e_ede e) q ci
     | ResponseIP => Some (rip_resolve res (addr_match (e_block e)) (e_filter e) (e_inverted e) (has (e_blockRes e)) (e_ede e) q ci)
     | ResponseName => rname_resolve res kv (name_match (e_block e)) rnd (e_inverted e) (has (e_blockRes e)) (e_ede e) q ci
     | ClientBlock => Some (client_resolve res (addr_match (e_block e)) (e_useECS e) (has (e_blockRes e)) q ci)
     end).
End CFG.
