(** C87: the settings of groups with lists (cmd/routedns/main.go, instantiateGroup, newBlocklistDB, newIPBlocklistDB). *)
From Verif Require Import Base Bytes Dns Cidr_spec Net_spec Modifiers_spec Lists_model Blocklist_model Blocklist_spec Blocklist_proofs ListCfg_model ListCfg_spec ListCfg_proofs4.
Local Open Scope string_scope.
Local Open Scope list_scope.

(** A path is read as a file, from just that path. *)
Theorem C87_file : forall R (w : env R) l f, local_path (l_source l) -> name_format (l_format l) f ->
  let d := Db (if String.eqb (l_name l) "" then l_source l else l_name l) f (FileLoader (l_source l) (l_allowFailure l)) in
  w_opens w d = true -> newBlocklistDB (w_authority w) (w_opens w) l [] = Some d.
Proof. exact (fun R w l f H => one_file w l H f). Qed.
Print Assumptions C87_file.
(** A URL, with the scheme in any case, is fetched. *)
Theorem C87_http : forall R (w : env R) l f, web (w_authority w) (l_source l) -> name_format (l_format l) f ->
  let d := Db (if String.eqb (l_name l) "" then l_source l else l_name l) f (HTTPLoader (l_source l) (l_cacheDir l) (l_allowFailure l)) in
  w_opens w d = true -> newBlocklistDB (w_authority w) (w_opens w) l [] = Some d.
Proof. exact (fun R w l f H => one_http w l H f). Qed.
Print Assumptions C87_http.
(** Anything else with a colon before the first slash is refused: other schemes, and file names with a colon. *)
Theorem C87_colon : forall R (w : env R) a b l, absent "/" a -> absent "?" a -> absent "#" a -> absent ":" a -> ~ http_name a ->
  l_source l = (a ++ String ":" b)%string ->
  newBlocklistDB (w_authority w) (w_opens w) l [] = None /\ forall file, newIPBlocklistDB (w_authority w) (w_opens w) l file [] = None.
Proof. exact @colon_refused. Qed.
Print Assumptions C87_colon.
(** Groups of type blocklist-v2: their lists, and what happens to queries. The rules to allow are read in the format of the rules to block. *)
Theorem C87_query : forall R (w : env R) id g gr e, built w id "blocklist-v2" g gr = Some e -> exists up B A E, gr = [up] /\
  in_force name_format id (g_blocklistFormat g) (g_blocklist g) (g_blocklistSource g) B /\
  in_force name_format "" (g_blocklistFormat g) (g_allowlist g) (g_allowlistSource g) A /\
  all_open w (A ++ B) /\ extended (w_template w) (g_edeCode g) (g_edeText g) E /\
  e_blockRefresh R e = seconds (g_blocklistRefresh g) /\ e_allowRefresh R e = seconds (g_allowlistRefresh g) /\
  forall q ci x rest, m_question q = x :: rest -> fine (w_names w) q (A ++ B) ->
    query_blocking (w_names w) (w_resolve w) up A B (w_resolvers w (g_allowlistResolver g)) (w_resolvers w (g_blocklistResolver g)) E q ci x (ask w e q ci).
Proof. exact @v2. Qed.
Print Assumptions C87_query.
(** Groups of the old type blocklist: rules, or one source; nothing is allowed, there is no other resolver and no extended error. *)
Theorem C87_old : forall R (w : env R) id g gr e, built w id "blocklist" g gr = Some e -> exists up B, gr = [up] /\
  in_force name_format id (g_format g) (g_blocklist g) (one_source id g) B /\ all_open w B /\ (g_blocklist g = [] \/ g_source g = "") /\ e_blockRefresh R e = seconds (g_refresh g) /\
  forall q ci x rest, m_question q = x :: rest -> fine (w_names w) q B -> query_blocking (w_names w) (w_resolve w) up [] B None None None q ci x (ask w e q ci).
Proof. exact @v1. Qed.
Print Assumptions C87_old.
(** Groups of type response-blocklist-ip. *)
Theorem C87_response_ip : forall R (w : env R) id type g gr e, ip_type type -> built w id type g gr = Some e -> exists up B E, gr = [up] /\
  in_force (addr_format (g_locationDB g)) id (g_blocklistFormat g) (g_blocklist g) (g_blocklistSource g) B /\
  all_open w B /\ extended (w_template w) (g_edeCode g) (g_edeText g) E /\ e_blockRefresh R e = seconds (g_blocklistRefresh g) /\
  forall q ci, let bad := objectionable (addr_listed (w_addrs w) B) (g_inverted g) in
   ((forall a, w_resolve w up q ci = Ans a -> m_rcode a <> 0%N) -> ask w e q ci = Some ([up], w_resolve w up q ci)) /\
   forall a, w_resolve w up q ci = Ans a -> m_rcode a = 0%N ->
    (g_filter g = false -> response_blocking (w_resolve w) up (w_resolvers w (g_blocklistResolver g)) bad (says (w_addrs w) E B q) q ci a (ask w e q ci)) /\
    (g_filter g = true -> response_filtering (w_resolve w) up (w_resolvers w (g_blocklistResolver g)) bad q ci a (ask w e q ci)).
Proof. exact @rip. Qed.
Print Assumptions C87_response_ip.
(** Groups of type response-blocklist-name: as documented, but for the extended error, which is never sent. *)
Theorem C87_response_name : forall R (w : env R) id g gr e, built w id "response-blocklist-name" g gr = Some e -> exists up B, gr = [up] /\
  in_force name_format "" (g_blocklistFormat g) (g_blocklist g) (g_blocklistSource g) B /\ all_open w B /\ e_blockRefresh R e = seconds (g_blocklistRefresh g) /\
  forall q ci, (forall s, fine (w_names w) (text_query (w_rnd w) s) B) ->
   ((forall a, w_resolve w up q ci <> Ans a) -> ask w e q ci = Some ([up], w_resolve w up q ci)) /\
   forall a, w_resolve w up q ci = Ans a ->
    response_blocking (w_resolve w) up (w_resolvers w (g_blocklistResolver g)) (bad_text (w_names w) (w_kv w) (w_rnd w) B (g_inverted g)) (fun ex => ex = []) q ci a (ask w e q ci).
Proof. exact @rname. Qed.
Print Assumptions C87_response_name.
(** Groups of type client-blocklist. *)
Theorem C87_client : forall R (w : env R) id g gr e, built w id "client-blocklist" g gr = Some e -> exists up B, gr = [up] /\
  in_force (addr_format (g_locationDB g)) id (g_blocklistFormat g) (g_blocklist g) (g_blocklistSource g) B /\ all_open w B /\ e_blockRefresh R e = seconds (g_blocklistRefresh g) /\
  forall q ci a, opt_wf q -> client_addr (g_useECS g) q ci a ->
    (a = [] \/ ~ addr_listed (w_addrs w) B a -> ask w e q ci = Some ([up], w_resolve w up q ci)) /\
    (a <> [] -> addr_listed (w_addrs w) B a ->
      match w_resolvers w (g_blocklistResolver g) with
      | Some r => ask w e q ci = Some ([r], w_resolve w r q ci)
      | None => exists m, ask w e q ci = Some ([], Ans m) /\ reply q 5 [] [] m
      end).
Proof. exact @clientb. Qed.
Print Assumptions C87_client.
(** Settings are taken if the sources are paths or URLs, the formats are known and the lists can be read. *)
Theorem C87_starts : forall R (w : env R) id type g up B A E,
  (forall s, In s (g_blocklistSource g ++ g_allowlistSource g) -> usable_source w s) -> extended (w_template w) (g_edeCode g) (g_edeText g) E ->
  all_open w (A ++ B) -> in_force name_format "" (g_blocklistFormat g) (g_allowlist g) (g_allowlistSource g) A ->
  (type = "blocklist-v2" /\ in_force name_format id (g_blocklistFormat g) (g_blocklist g) (g_blocklistSource g) B) \/
  (type = "response-blocklist-name" /\ in_force name_format "" (g_blocklistFormat g) (g_blocklist g) (g_blocklistSource g) B) \/
  ((type = "response-blocklist-ip" \/ type = "client-blocklist") /\ in_force (addr_format (g_locationDB g)) id (g_blocklistFormat g) (g_blocklist g) (g_blocklistSource g) B) ->
  exists e, built w id type g [up] = Some e.
Proof. exact @starts. Qed.
Print Assumptions C87_starts.
(** The interval to refresh lists, in nanoseconds; those of nought or less do not refresh. *)
Theorem C87_refresh : forall n, ((0 <= n <= 9223372036)%Z -> seconds n = (n * 1000000000)%Z) /\ ((-9223372036 <= n < 0)%Z -> (seconds n < 0)%Z).
Proof. exact (fun n => conj (seconds_exact n) (seconds_neg n)). Qed.
Print Assumptions C87_refresh.
(** allowlist-format is not used: rules in the format domain are read as regular expressions, and allow what contains them. *)
Theorem C87_allow_format_refuted : exists g, g_allowlistFormat g = "domain" /\ g_allowlist g = ["good.com"] /\ g_blocklist g = ["."] /\
  forall R (w : env R) id up e q ci x rest, built w id "blocklist-v2" g [up] = Some e -> w_resolvers w "" = None -> m_question q = x :: rest ->
    fine (w_names w) q [Db "" Regexp (StaticLoader ["good.com"]); Db id Regexp (StaticLoader ["."])] ->
    listing (w_names w) q (Db "" Regexp (StaticLoader ["good.com"])) -> ask w e q ci = Some ([up], w_resolve w up q ci).
Proof. exact (ex_intro _ mixed (conj eq_refl (conj eq_refl (conj eq_refl (@allow_format))))). Qed.
Print Assumptions C87_allow_format_refuted.
(** edns0-ede is not used by response-blocklist-name. *)
Theorem C87_error_refuted : exists g, g_edeCode g = 15%N /\ g_edeText g = "Blocked" /\
  forall R (w : env R) id up e q ci a, built w id "response-blocklist-name" g [up] = Some e -> w_resolvers w "" = None ->
    (forall s, fine (w_names w) (text_query (w_rnd w) s) [Db "" Regexp (StaticLoader ["evil"])]) -> w_resolve w up q ci = Ans a ->
    (exists r s, In r (records a) /\ text_of (w_kv w) r s /\ listing (w_names w) (text_query (w_rnd w) s) (Db "" Regexp (StaticLoader ["evil"]))) ->
    exists m, ask w e q ci = Some ([up], Ans m) /\ m_rcode m = 3%N /\ m_extra m = [].
Proof. exact (ex_intro _ with_error (conj eq_refl (conj eq_refl (@no_error)))). Qed.
Print Assumptions C87_error_refuted.
(** A file whose name has a percent sign may be refused. *)
Theorem C87_percent_refuted : forall R (w : env R) l rules, l_source l = "100%.txt" -> newBlocklistDB (w_authority w) (w_opens w) l rules = None.
Proof. exact @percent_refused. Qed.
Print Assumptions C87_percent_refuted.
(** An interval of more than 292 years is none. *)
Theorem C87_refresh_refuted : (seconds 9223372037 < 0)%Z.
Proof. exact (eq_refl : (seconds 9223372037 ?= 0)%Z = Lt). Qed.
Print Assumptions C87_refresh_refuted.

(** Sources *)
Definition ex_parse (s : string) : option string := url_parse (fun h => negb (contains " " h)) s.
Example C87_ex_sources :
  map ex_parse ["./example-config/domains.txt"; "/etc/lists/a:b.txt"; "HTTPS://host/block?x#y"; "file:///etc/list"; "C:\lists\bad.txt"; "2024:list"; "list%20x"; "http://bad host/"; "a#b?c"; ""]
  = [Some ""; Some ""; Some "https"; Some "file"; Some "c"; None; Some ""; None; Some ""; Some ""].
Proof. vm_compute. reflexivity. Qed.
Example C87_ex_path : local_path "./example-config/a:b.txt".
Proof.
  split; [|split; [reflexivity|]].
  - intros c I. cbn in I. repeat (destruct I as [<-|I]; [vm_compute; repeat split; discriminate|]). destruct I.
  - exists ".", "/example-config/a:b.txt". split; [reflexivity|]. split; [|right; now eexists]. intros [E|[]]. discriminate.
Qed.
Example C87_ex_web : web (fun h => String.eqb h "host") "Https://host/x".
Proof.
  exists "Https", "host", "/x". split; [reflexivity|]. split; [right; reflexivity|]. split.
  { intros c I. cbn in I. repeat (destruct I as [<-|I]; [vm_compute; repeat split; discriminate|]). destruct I. }
  repeat split; try (intros I; cbn in I; repeat (destruct I as [I|I]; [discriminate|]); destruct I).
  right. exists "/"%char, "x". auto.
Qed.
(** Two sources and rules to allow: names are matched by what they contain, or, in the format domain, as a whole *)
Fixpoint ex_contains (p s : string) : bool := has_prefix p s || match s with EmptyString => false | String _ s' => ex_contains p s' end.
Definition ex_names (d : db) (q : msg) : option mres :=
  let rules := match d_reader d with StaticLoader r => r | FileLoader "bad.txt" _ => ["bad.com."] | _ => ["ads"] end in
  let hit r := match d_format d with Domain => String.eqb r (qName q) | _ => ex_contains r (qName q) end in
  Some (match find hit rules with Some r => MRes [] [] (Some (d_name d, r)) true | None => no_match end).
Definition ex_w : env nat :=
  Env nat (fun _ => true) (fun _ => true) (fun s => Some (fun _ m => Some (match m with Some (l, r) => (s ++ " " ++ l ++ " " ++ r)%string | None => s end)))
    (fun s => if String.eqb s "other" then Some 1%nat else None) ex_names (fun _ _ => None) (fun r q _ => Ans (set_rcode (set_reply empty_msg q) q (N.of_nat r))) (fun _ => "") 7.
Definition ex_g : group :=
  Group "" "" 0 [] "" [ListCfg "" "domain" "bad.txt" "" false; ListCfg "ads-list" "" "https://host/ads" "/var/cache" true] 3600 "" ["good"] "" [] 0 "other" "" false false false 15 "blocked by".
Definition ex_q (n : string) : msg := Msg 7 false 0 false false true false false false 0 [Q n 1 1] [] [] [].
Definition ex_run (n : string) :=
  match built ex_w "g" "blocklist-v2" ex_g [0%nat] with
  | Some e => option_map (fun r => (fst r, match snd r with Ans m => Some (m_rcode m, map rr_data (m_extra m)) | _ => None end)) (ask ex_w e (ex_q n) (Client [] "" "" ""))
  | None => None
  end.
Example C87_ex_run :
  ex_run "bad.com." = Some ([], Some (3%N, [DOPT [EDE 15 "blocked by bad.txt bad.com."]])) /\
  ex_run "www.bad.com." = Some ([0%nat], Some (0%N, [])) /\
  ex_run "ads.com." = Some ([], Some (3%N, [DOPT [EDE 15 "blocked by ads-list ads"]])) /\
  ex_run "goodads.com." = Some ([1%nat], Some (1%N, [])).
Proof. vm_compute. repeat split. Qed.
Lemma ex_fine q L : fine ex_names q L.
Proof.
  intros d _. unfold ex_names. destruct (find _ _); eexists; (split; [reflexivity|]); (split; [intros H; discriminate|constructor]).
Qed.
(** The case of C87_allow_format_refuted: the name is not good.com, and passes *)
Example C87_ex_allow : listing ex_names (ex_q "not-good.com.evil.") (Db "" Regexp (StaticLoader ["good.com"])) /\
  ~ listing ex_names (ex_q "not-good.com.evil.") (Db "" Domain (StaticLoader ["good.com"])).
Proof. split; [eexists; split; vm_compute; reflexivity|]. intros (m & E & O). vm_compute in E. injection E as <-. discriminate. Qed.
Example C87_ex_allow_built : exists e, built ex_w "g" "blocklist-v2" mixed [0%nat] = Some e.
Proof. eexists. vm_compute. reflexivity. Qed.
Example C87_ex_error_built : exists e, built ex_w "g" "response-blocklist-name" with_error [0%nat] = Some e.
Proof. eexists. vm_compute. reflexivity. Qed.
