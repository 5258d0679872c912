From Verif Require Import Base Bytes Dns Cidr_spec Net_spec Modifiers_spec Lists_model Geo_model Blocklist_model Blocklist_spec Blocklist_proofs ListCfg_model ListCfg_spec ListCfg_proofs ListCfg_proofs2 ListCfg_proofs3.
Local Open Scope string_scope.
Local Open Scope list_scope.

Section MAKE.
Context {R : Type}.
Variable w : env R.
Notation single l := (exists up, l = [up]).
Lemma one_file l : local_path (l_source l) -> forall f, name_format (l_format l) f ->
  let d := Db (if String.eqb (l_name l) "" then l_source l else l_name l) f (FileLoader (l_source l) (l_allowFailure l)) in
  w_opens w d = true -> newBlocklistDB (w_authority w) (w_opens w) l [] = Some d.
Proof.
  intros L f Hf d O. apply (newDB_made _ _ nameFormat name_format name_format_iff); [now left| |exact O]. split; [exact Hf|]. split; [right; split; [now apply (local_unlike (w_authority w))|reflexivity]|].
  cbn. split; [intros N; apply String.eqb_neq in N; now rewrite N|intros ->; reflexivity].
Qed.
Lemma one_http l : web (w_authority w) (l_source l) -> forall f, name_format (l_format l) f ->
  let d := Db (if String.eqb (l_name l) "" then l_source l else l_name l) f (HTTPLoader (l_source l) (l_cacheDir l) (l_allowFailure l)) in
  w_opens w d = true -> newBlocklistDB (w_authority w) (w_opens w) l [] = Some d.
Proof.
  intros L f Hf d O. apply (newDB_made _ _ nameFormat name_format name_format_iff); [now right| |exact O]. split; [exact Hf|]. split; [left; split; [now apply (web_like (w_authority w))|reflexivity]|].
  cbn. split; [intros N; apply String.eqb_neq in N; now rewrite N|intros ->; reflexivity].
Qed.
Lemma colon_refused a b l : absent "/" a -> absent "?" a -> absent "#" a -> absent ":" a -> ~ http_name a -> l_source l = (a ++ String ":" b)%string ->
  newBlocklistDB (w_authority w) (w_opens w) l [] = None /\ forall file, newIPBlocklistDB (w_authority w) (w_opens w) l file [] = None.
Proof.
  intros A1 A2 A3 A4 NH E.
  assert (forall F, newDB (w_authority w) (w_opens w) F l [] = None) as X; [|split; intros; apply X].
  intros F. unfold newDB. rewrite E. destruct (url_parse (w_authority w) (a ++ String ":" b)) as [sch|] eqn:U; [|reflexivity].
  apply colon_parse in U as (N1 & N2 & N3); auto. unfold newLoader. apply String.eqb_neq in N1, N2, N3. now rewrite N1, N2, N3.
Qed.
Lemma v1 id g gr e : built w id "blocklist" g gr = Some e -> exists up B, gr = [up] /\
  in_force name_format id (g_format g) (g_blocklist g) (one_source id g) B /\ all_open w B /\ (g_blocklist g = [] \/ g_source g = "") /\ e_blockRefresh R e = seconds (g_refresh g) /\
  forall q ci x rest, m_question q = x :: rest -> fine (w_names w) q B -> query_blocking (w_names w) (w_resolve w) up [] B None None None q ci x (ask w e q ci).
Proof.
  unfold built. cbn [make String.eqb]. change (make (w_authority w) (w_opens w) (w_template w) R (w_resolvers w) id "blocklist" g gr) with (make_blocklist (w_authority w) (w_opens w) R id g gr).
  unfold make_blocklist. destruct gr as [|up [|]]; try discriminate. destruct (nonempty (g_blocklist g) && negb (String.eqb (g_source g) "")) eqn:C; [discriminate|].
  destruct (newBlocklistDB _ _ _ _) as [d|] eqn:D; [|discriminate]. intros X. injection X as <-. exists up, [d]. split; [reflexivity|].
  apply (newDB_some _ _ nameFormat name_format name_format_iff) in D as (O & Ff & N1 & N2 & R1 & R2). cbn [l_format l_name l_source plain_list] in *.
  assert (g_blocklist g = [] \/ g_source g = "") as GS.
  { destruct (g_blocklist g); [now left|right]. cbn in C. apply negb_false_iff, String.eqb_eq in C. exact C. }
  split; [|split; [intros x [<-|[]]; exact O|split; [exact GS|split; [reflexivity|]]]].
  - unfold one_source. destruct (g_blocklist g) as [|r rs] eqn:GB.
    + apply if_sources. constructor; [|constructor]. split; [exact Ff|]. split; [now apply R2|]. auto.
    + specialize (R1 ltac:(discriminate)). destruct d as [n f rd]. cbn in *. subst rd. assert (n = id) as ->.
      { destruct id; [|apply N1; discriminate]. rewrite N2 by reflexivity. destruct GS; [discriminate|assumption]. }
      apply if_static; [discriminate|exact Ff].
  - intros q ci x rest HQ Fi. match goal with |- query_blocking _ _ _ _ _ _ _ _ _ _ _ (ask _ ?e _ _) => exact (query_element R (w_names w) (w_addrs w) (w_resolve w) (w_kv w) (w_rnd w) e q ci x rest eq_refl HQ Fi) end.
Qed.
Lemma v2 id g gr e : built w id "blocklist-v2" g gr = Some e -> exists up B A E, gr = [up] /\
  in_force name_format id (g_blocklistFormat g) (g_blocklist g) (g_blocklistSource g) B /\
  in_force name_format "" (g_blocklistFormat g) (g_allowlist g) (g_allowlistSource g) A /\
  all_open w (A ++ B) /\ extended (w_template w) (g_edeCode g) (g_edeText g) E /\
  e_blockRefresh R e = seconds (g_blocklistRefresh g) /\ e_allowRefresh R e = seconds (g_allowlistRefresh g) /\
  forall q ci x rest, m_question q = x :: rest -> fine (w_names w) q (A ++ B) ->
    query_blocking (w_names w) (w_resolve w) up A B (w_resolvers w (g_allowlistResolver g)) (w_resolvers w (g_blocklistResolver g)) E q ci x (ask w e q ci).
Proof.
  unfold built. change (make (w_authority w) (w_opens w) (w_template w) R (w_resolvers w) id "blocklist-v2" g gr) with (make_blocklist_v2 (w_authority w) (w_opens w) (w_template w) R (w_resolvers w) id g gr).
  unfold make_blocklist_v2. destruct gr as [|up [|]]; try discriminate.
  destruct (nonempty (g_blocklist g) && nonempty (g_blocklistSource g)) eqn:C1; [discriminate|].
  destruct (nonempty (g_allowlist g) && nonempty (g_allowlistSource g)) eqn:C2; [discriminate|].
  destruct (lists _ _ (g_blocklist g) _) as [b|] eqn:LB; [|discriminate]. destruct (lists _ _ (g_allowlist g) _) as [a|] eqn:LA; [|discriminate].
  destruct (newEDE _ _ _) as [t|] eqn:T; [|discriminate]. intros X. injection X as <-.
  apply (lists_some _ _ nameFormat name_format name_format_iff) in LB as [B1 B2]; [|reflexivity|exact C1]. apply (lists_some _ _ nameFormat name_format name_format_iff) in LA as [A1 A2]; [|reflexivity|exact C2].
  exists up, (contents b), (contents a), (ede_of t). split; [reflexivity|]. split; [exact B1|]. split; [exact A1|]. split; [intros d I; apply in_app_or in I as [I|I]; auto|].
  split; [now apply ede_made|]. split; [reflexivity|]. split; [reflexivity|]. intros q ci x rest HQ Fi.
  match goal with |- query_blocking _ _ _ _ _ _ _ _ _ _ _ (ask _ ?e _ _) => exact (query_element R (w_names w) (w_addrs w) (w_resolve w) (w_kv w) (w_rnd w) e q ci x rest eq_refl HQ Fi) end.
Qed.
Lemma rip id type g gr e : ip_type type -> built w id type g gr = Some e -> exists up B E, gr = [up] /\
  in_force (addr_format (g_locationDB g)) id (g_blocklistFormat g) (g_blocklist g) (g_blocklistSource g) B /\
  all_open w B /\ extended (w_template w) (g_edeCode g) (g_edeText g) E /\ e_blockRefresh R e = seconds (g_blocklistRefresh g) /\
  forall q ci, let bad := objectionable (addr_listed (w_addrs w) B) (g_inverted g) in
   ((forall a, w_resolve w up q ci = Ans a -> m_rcode a <> 0%N) -> ask w e q ci = Some ([up], w_resolve w up q ci)) /\
   forall a, w_resolve w up q ci = Ans a -> m_rcode a = 0%N ->
    (g_filter g = false -> response_blocking (w_resolve w) up (w_resolvers w (g_blocklistResolver g)) bad (says (w_addrs w) E B q) q ci a (ask w e q ci)) /\
    (g_filter g = true -> response_filtering (w_resolve w) up (w_resolvers w (g_blocklistResolver g)) bad q ci a (ask w e q ci)).
Proof.
  intros T. unfold built. assert (make (w_authority w) (w_opens w) (w_template w) R (w_resolvers w) id type g gr = make_response_ip (w_authority w) (w_opens w) (w_template w) R (w_resolvers w) id g gr) as -> by (destruct T as [-> | ->]; reflexivity).
  unfold make_response_ip. destruct gr as [|up [|]]; try discriminate.
  destruct (nonempty (g_blocklist g) && nonempty (g_blocklistSource g)) eqn:C1; [discriminate|].
  destruct (lists _ _ (g_blocklist g) _) as [b|] eqn:LB; [|discriminate].
  destruct (newEDE _ _ _) as [t|] eqn:TE; [|discriminate]. intros X. injection X as <-.
  apply (lists_some _ _ (ipFormat (g_locationDB g)) _ (addr_format_iff (g_locationDB g))) in LB as [B1 B2]; [|reflexivity|exact C1].
  exists up, (contents b), (ede_of t). split; [reflexivity|]. split; [exact B1|]. split; [exact B2|]. split; [now apply ede_made|]. split; [reflexivity|]. intros q ci. split.
  - intros N. apply rip_element_other; [reflexivity|exact N].
  - intros a U RC. match goal with |- (_ -> response_blocking _ _ _ _ _ _ _ _ (ask _ ?e _ _)) /\ _ => exact (rip_element R (w_names w) (w_addrs w) (w_resolve w) (w_kv w) (w_rnd w) e q ci a eq_refl U RC) end.
Qed.
Lemma rname id g gr e : built w id "response-blocklist-name" g gr = Some e -> exists up B, gr = [up] /\
  in_force name_format "" (g_blocklistFormat g) (g_blocklist g) (g_blocklistSource g) B /\ all_open w B /\ e_blockRefresh R e = seconds (g_blocklistRefresh g) /\
  forall q ci, (forall s, fine (w_names w) (text_query (w_rnd w) s) B) ->
   ((forall a, w_resolve w up q ci <> Ans a) -> ask w e q ci = Some ([up], w_resolve w up q ci)) /\
   forall a, w_resolve w up q ci = Ans a ->
    response_blocking (w_resolve w) up (w_resolvers w (g_blocklistResolver g)) (bad_text (w_names w) (w_kv w) (w_rnd w) B (g_inverted g)) (fun ex => ex = []) q ci a (ask w e q ci).
Proof.
  unfold built. change (make (w_authority w) (w_opens w) (w_template w) R (w_resolvers w) id "response-blocklist-name" g gr) with (make_response_name (w_authority w) (w_opens w) R (w_resolvers w) id g gr).
  unfold make_response_name. destruct gr as [|up [|]]; try discriminate.
  destruct (nonempty (g_blocklist g) && nonempty (g_blocklistSource g)) eqn:C1; [discriminate|].
  destruct (lists _ _ (g_blocklist g) _) as [b|] eqn:LB; [|discriminate]. intros X. injection X as <-.
  apply (lists_some _ _ nameFormat name_format name_format_iff) in LB as [B1 B2]; [|reflexivity|exact C1].
  exists up, (contents b). split; [reflexivity|]. split; [exact B1|]. split; [exact B2|]. split; [reflexivity|]. intros q ci Fi. split.
  - intros N. apply rname_element_other; [reflexivity|exact N].
  - intros a U. match goal with |- response_blocking _ _ _ _ _ _ _ _ (ask _ ?e _ _) => exact (rname_element R (w_names w) (w_addrs w) (w_resolve w) (w_kv w) (w_rnd w) e q ci a eq_refl Fi U eq_refl) end.
Qed.
Lemma clientb id g gr e : built w id "client-blocklist" g gr = Some e -> exists up B, gr = [up] /\
  in_force (addr_format (g_locationDB g)) id (g_blocklistFormat g) (g_blocklist g) (g_blocklistSource g) B /\ all_open w B /\ e_blockRefresh R e = seconds (g_blocklistRefresh g) /\
  forall q ci a, opt_wf q -> client_addr (g_useECS g) q ci a ->
    (a = [] \/ ~ addr_listed (w_addrs w) B a -> ask w e q ci = Some ([up], w_resolve w up q ci)) /\
    (a <> [] -> addr_listed (w_addrs w) B a ->
      match w_resolvers w (g_blocklistResolver g) with
      | Some r => ask w e q ci = Some ([r], w_resolve w r q ci)
      | None => exists m, ask w e q ci = Some ([], Ans m) /\ reply q 5 [] [] m
      end).
Proof.
  unfold built. change (make (w_authority w) (w_opens w) (w_template w) R (w_resolvers w) id "client-blocklist" g gr) with (make_client (w_authority w) (w_opens w) R (w_resolvers w) id g gr).
  unfold make_client. destruct gr as [|up [|]]; try discriminate.
  destruct (nonempty (g_blocklist g) && nonempty (g_blocklistSource g)) eqn:C1; [discriminate|].
  destruct (lists _ _ (g_blocklist g) _) as [b|] eqn:LB; [|discriminate]. intros X. injection X as <-.
  apply (lists_some _ _ (ipFormat (g_locationDB g)) _ (addr_format_iff (g_locationDB g))) in LB as [B1 B2]; [|reflexivity|exact C1].
  exists up, (contents b). split; [reflexivity|]. split; [exact B1|]. split; [exact B2|]. split; [reflexivity|]. intros q ci a W CA.
  match goal with |- (_ -> ask _ ?e _ _ = _) /\ _ => exact (client_element R (w_names w) (w_addrs w) (w_resolve w) (w_kv w) (w_rnd w) e q ci a eq_refl W CA) end.
Qed.
Lemma empty_local : local_path "".
Proof. split; [intros c []|]. split; [reflexivity|]. exists "", "". repeat split; auto. apply absent_nil. Qed.
(** Settings that are all right are taken *)
Lemma starts id type g up B A E :
  (forall s, In s (g_blocklistSource g ++ g_allowlistSource g) -> usable_source w s) -> extended (w_template w) (g_edeCode g) (g_edeText g) E ->
  all_open w (A ++ B) -> in_force name_format "" (g_blocklistFormat g) (g_allowlist g) (g_allowlistSource g) A ->
  (type = "blocklist-v2" /\ in_force name_format id (g_blocklistFormat g) (g_blocklist g) (g_blocklistSource g) B) \/
  (type = "response-blocklist-name" /\ in_force name_format "" (g_blocklistFormat g) (g_blocklist g) (g_blocklistSource g) B) \/
  ((type = "response-blocklist-ip" \/ type = "client-blocklist") /\ in_force (addr_format (g_locationDB g)) id (g_blocklistFormat g) (g_blocklist g) (g_blocklistSource g) B) ->
  exists e, built w id type g [up] = Some e.
Proof.
  intros U EX O IA H.
  assert (forall s, In s (g_blocklistSource g) -> usable (w_authority w) (l_source s)) as UB by (intros s I; apply U, in_or_app; auto).
  assert (forall s, In s (g_allowlistSource g) -> usable (w_authority w) (l_source s)) as UA by (intros s I; apply U, in_or_app; auto).
  assert (forall d, In d B -> w_opens w d = true) as OB by (intros d I; apply O, in_or_app; auto).
  assert (forall d, In d A -> w_opens w d = true) as OA by (intros d I; apply O, in_or_app; auto).
  assert (exists t, newEDE (w_template w) (g_edeCode g) (g_edeText g) = Some t) as [t ET].
  { unfold newEDE. destruct EX as [(-> & -> & _)|(N & f & -> & _)]; [now eexists|]. destruct (N.eqb (g_edeCode g) 0 && String.eqb (g_edeText g) "") ; eexists; reflexivity. }
  assert (forall fmt n f rules src L, in_force fmt n f rules src L -> nonempty rules && nonempty src = false) as NB.
  { intros fmt n f rules src L X. destruct X; [destruct rules; reflexivity|reflexivity]. }
  unfold built. destruct H as [[-> IB]|[[-> IB]|[T IB]]].
  - change (make (w_authority w) (w_opens w) (w_template w) R (w_resolvers w) id "blocklist-v2" g [up]) with (make_blocklist_v2 (w_authority w) (w_opens w) (w_template w) R (w_resolvers w) id g [up]).
    unfold make_blocklist_v2. rewrite (NB _ _ _ _ _ _ IB), (NB _ _ _ _ _ _ IA).
    destruct (lists_made _ _ nameFormat name_format name_format_iff (plain_list id (g_blocklistFormat g) "") _ _ _ eq_refl UB IB OB) as (b & Lb & _).
    destruct (lists_made _ _ nameFormat name_format name_format_iff (plain_list "" (g_blocklistFormat g) "") _ _ _ eq_refl UA IA OA) as (a & La & _).
    change (newBlocklistDB (w_authority w) (w_opens w)) with (newDB (w_authority w) (w_opens w) nameFormat). rewrite Lb, La, ET. eauto.
  - change (make (w_authority w) (w_opens w) (w_template w) R (w_resolvers w) id "response-blocklist-name" g [up]) with (make_response_name (w_authority w) (w_opens w) R (w_resolvers w) id g [up]).
    unfold make_response_name. rewrite (NB _ _ _ _ _ _ IB).
    destruct (lists_made _ _ nameFormat name_format name_format_iff (plain_list "" (g_blocklistFormat g) "") _ _ _ eq_refl UB IB OB) as (b & Lb & _).
    change (newBlocklistDB (w_authority w) (w_opens w)) with (newDB (w_authority w) (w_opens w) nameFormat). rewrite Lb. eauto.
  - destruct (lists_made _ _ (ipFormat (g_locationDB g)) _ (addr_format_iff (g_locationDB g)) (plain_list id (g_blocklistFormat g) "") _ _ _ eq_refl UB IB OB) as (b & Lb & _).
    destruct T as [-> | ->].
    + change (make (w_authority w) (w_opens w) (w_template w) R (w_resolvers w) id "response-blocklist-ip" g [up]) with (make_response_ip (w_authority w) (w_opens w) (w_template w) R (w_resolvers w) id g [up]).
      unfold make_response_ip. rewrite (NB _ _ _ _ _ _ IB). change (fun l => newIPBlocklistDB (w_authority w) (w_opens w) l (g_locationDB g)) with (newDB (w_authority w) (w_opens w) (ipFormat (g_locationDB g))). rewrite Lb, ET. eauto.
    + change (make (w_authority w) (w_opens w) (w_template w) R (w_resolvers w) id "client-blocklist" g [up]) with (make_client (w_authority w) (w_opens w) R (w_resolvers w) id g [up]).
      unfold make_client. rewrite (NB _ _ _ _ _ _ IB). change (fun l => newIPBlocklistDB (w_authority w) (w_opens w) l (g_locationDB g)) with (newDB (w_authority w) (w_opens w) (ipFormat (g_locationDB g))). rewrite Lb. eauto.
Qed.
End MAKE.
(** Refresh intervals *)
Lemma seconds_exact n : (0 <= n <= 9223372036)%Z -> seconds n = (n * 1000000000)%Z.
Proof. intros H. unfold seconds. rewrite Z.mod_small by lia. lia. Qed.
Lemma seconds_neg n : (-9223372036 <= n < 0)%Z -> (seconds n < 0)%Z.
Proof. intros H. unfold seconds. rewrite Z.mod_small by lia. lia. Qed.

(** *** Where the settings do not do what they say *)
(** Rules to allow in the format domain; anything is blocked *)
Definition mixed : group := Group "" "" 0 ["."] "" [] 0 "" ["good.com"] "domain" [] 0 "" "" false false false 0 "".
Lemma allow_format {R} (w : env R) id up e q ci x rest : built w id "blocklist-v2" mixed [up] = Some e -> w_resolvers w "" = None -> m_question q = x :: rest ->
  fine (w_names w) q [Db "" Regexp (StaticLoader ["good.com"]); Db id Regexp (StaticLoader ["."])] ->
  listing (w_names w) q (Db "" Regexp (StaticLoader ["good.com"])) -> ask w e q ci = Some ([up], w_resolve w up q ci).
Proof.
  intros B NR HQ Fi L. apply v2 in B as (up' & B & A & E & G & IB & IA & _ & _ & _ & _ & H). injection G as <-. cbn [g_blocklist g_blocklistFormat g_blocklistSource g_allowlist g_allowlistSource mixed] in *.
  assert (B = [Db id Regexp (StaticLoader ["."])]) as -> by (inversion IB as [? ? ? F|]; inversion F; reflexivity).
  assert (A = [Db "" Regexp (StaticLoader ["good.com"])]) as -> by (inversion IA as [? ? ? F|]; inversion F; reflexivity).
  destruct (H q ci x rest HQ Fi) as [K _]. rewrite K; [|eexists; split; [now left|exact L]]. cbn [g_allowlistResolver mixed]. now rewrite NR.
Qed.
Definition with_error : group := Group "" "" 0 ["evil"] "" [] 0 "" [] "" [] 0 "" "" false false false 15 "Blocked".
Lemma no_error {R} (w : env R) id up e q ci a : built w id "response-blocklist-name" with_error [up] = Some e -> w_resolvers w "" = None ->
  (forall s, fine (w_names w) (text_query (w_rnd w) s) [Db "" Regexp (StaticLoader ["evil"])]) -> w_resolve w up q ci = Ans a ->
  (exists r s, In r (records a) /\ text_of (w_kv w) r s /\ listing (w_names w) (text_query (w_rnd w) s) (Db "" Regexp (StaticLoader ["evil"]))) ->
  exists m, ask w e q ci = Some ([up], Ans m) /\ m_rcode m = 3%N /\ m_extra m = [].
Proof.
  intros B NR Fi U (r & s & I & T & L). apply rname in B as (up' & B & G & IB & _ & _ & H). injection G as <-.
  assert (B = [Db "" Regexp (StaticLoader ["evil"])]) as -> by (inversion IB as [? ? ? F|]; inversion F; reflexivity).
  destruct (H q ci Fi) as [_ K]. destruct (K a U) as [_ K2]. cbn [g_blocklistResolver with_error g_inverted] in K2. rewrite NR in K2. destruct K2 as (m & ex & -> & Y & ->).
  - exists r. split; [exact I|]. exists s. split; [exact T|]. eexists. split; [now left|exact L].
  - exists m. split; [reflexivity|]. unfold reply in Y. split; apply Y.
Qed.
Lemma percent_refused {R} (w : env R) l rules : l_source l = "100%.txt" -> newBlocklistDB (w_authority w) (w_opens w) l rules = None.
Proof. intros E. unfold newBlocklistDB, newDB. now rewrite E. Qed.
