From Verif Require Import Base Bytes Dns Cidr_spec Lists_model Geo_model Blocklist_model Blocklist_spec Blocklist_proofs ListCfg_model ListCfg_spec ListCfg_proofs.
Local Open Scope string_scope.
Local Open Scope list_scope.

Lemma name_format_iff s f : nameFormat s = Some f <-> name_format s f.
Proof.
  unfold nameFormat. split.
  - destruct (String.eqb s "regexp") eqn:E1; [apply String.eqb_eq in E1 as ->; intros X; injection X as <-; apply nf_regexp|].
    destruct (String.eqb s "") eqn:E2; [apply String.eqb_eq in E2 as ->; intros X; injection X as <-; apply nf_default|]. cbn [orb].
    destruct (String.eqb s "domain") eqn:E3; [apply String.eqb_eq in E3 as ->; intros X; injection X as <-; apply nf_domain|].
    destruct (String.eqb s "domain-subdomain") eqn:E4; [apply String.eqb_eq in E4 as ->; intros X; injection X as <-; apply nf_sub|].
    destruct (String.eqb s "hosts") eqn:E5; [apply String.eqb_eq in E5 as ->; intros X; injection X as <-; apply nf_hosts|].
    destruct (String.eqb s "mac") eqn:E6; [apply String.eqb_eq in E6 as ->; intros X; injection X as <-; apply nf_mac|discriminate].
  - intros H. destruct H; reflexivity.
Qed.
Lemma addr_format_iff file s f : ipFormat file s = Some f <-> addr_format file s f.
Proof.
  unfold ipFormat. split.
  - destruct (String.eqb s "cidr") eqn:E1; [apply String.eqb_eq in E1 as ->; intros X; injection X as <-; apply af_cidr|].
    destruct (String.eqb s "") eqn:E2; [apply String.eqb_eq in E2 as ->; intros X; injection X as <-; apply af_default|]. cbn [orb].
    destruct (String.eqb s "location") eqn:E3; [apply String.eqb_eq in E3 as ->; intros X; injection X as <-; apply af_location|].
    destruct (String.eqb s "asn") eqn:E4; [apply String.eqb_eq in E4 as ->; intros X; injection X as <-; apply af_asn|discriminate].
  - intros H. destruct H; reflexivity.
Qed.

Section CFG.
Variable authority : string -> bool.
Variable opens : db -> bool.
Section FORMATS.
Variable F : string -> option format.
Variable fmt : string -> format -> Prop.
Hypothesis FF : forall s f, F s = Some f <-> fmt s f.
Lemma newDB_some l rules d : newDB authority opens F l rules = Some d ->
  opens d = true /\ fmt (l_format l) (d_format d) /\ (l_name l <> "" -> d_name d = l_name l) /\ (l_name l = "" -> d_name d = l_source l) /\
  (rules <> [] -> d_reader d = StaticLoader rules) /\ (rules = [] -> comes_from l (d_reader d)).
Proof.
  unfold newDB. destruct (url_parse authority (l_source l)) as [sch|] eqn:U; [|discriminate].
  destruct (newLoader l rules sch) as [r|] eqn:NL; [|discriminate]. destruct (F (l_format l)) as [f|] eqn:E; [|discriminate].
  unfold open_db. set (d0 := Db _ f r). destruct (opens d0) eqn:O; [|discriminate]. intros X. injection X as <-. subst d0. cbn [d_format d_name d_reader].
  split; [exact O|]. split; [now apply FF|]. split; [intros N; apply String.eqb_neq in N; now rewrite N|]. split; [intros ->; reflexivity|].
  unfold newLoader in NL. split.
  - intros N. destruct rules; congruence.
  - intros ->. unfold comes_from. destruct (String.eqb sch "http" || String.eqb sch "https") eqn:H.
    + left. split; [|congruence]. apply (parse_like authority _ sch U). apply orb_prop in H as [H|H]; apply String.eqb_eq in H; auto.
    + right. destruct (String.eqb sch "") eqn:Z; [|discriminate]. split; [|congruence]. intros L. apply (like_parse authority _ sch L) in U.
      apply String.eqb_eq in Z. destruct U; congruence.
Qed.
(** A well-formed source *)
Definition usable (u : string) : Prop := local_path u \/ web authority u.
Lemma web_like u : web authority u -> http_like u.
Proof. intros (s & h & tl & -> & H & _). exists s, ("//" ++ h ++ tl)%string. auto. Qed.
Lemma local_unlike u : local_path u -> ~ http_like u.
Proof. intros L H. apply (like_parse authority u "") in H; [|now apply local_parse]. destruct H; discriminate. Qed.
Lemma newDB_made l d : usable (l_source l) -> list_of fmt l d -> opens d = true -> newDB authority opens F l [] = Some d.
Proof.
  intros S (Ff & C & N1 & N2) O. unfold newDB, open_db.
  assert (d = Db (if String.eqb (l_name l) "" then l_source l else l_name l) (d_format d) (d_reader d)) as D.
  { destruct d as [n f r]. cbn in *. f_equal. destruct (String.eqb (l_name l) "") eqn:E; [apply String.eqb_eq in E; auto|apply String.eqb_neq in E; auto]. }
  destruct S as [L|W].
  - rewrite (local_parse authority _ L). cbn [newLoader String.eqb orb]. destruct C as [[H _]|[_ R]]; [destruct (local_unlike _ L H)|].
    apply FF in Ff. rewrite Ff. rewrite <- R, <- D, O. reflexivity.
  - destruct (web_parse authority _ W) as (sch & -> & H). destruct C as [[_ R]|[X _]]; [|destruct (X (web_like _ W))].
    apply FF in Ff. rewrite Ff. unfold newLoader.
    assert (String.eqb sch "http" || String.eqb sch "https" = true) as -> by (destruct H as [-> | ->]; reflexivity). rewrite <- R, <- D, O. reflexivity.
Qed.
Lemma newDB_static l rules f : l_source l = "" -> rules <> [] -> fmt (l_format l) f -> opens (Db (l_name l) f (StaticLoader rules)) = true ->
  newDB authority opens F l rules = Some (Db (l_name l) f (StaticLoader rules)).
Proof.
  intros S N Ff O. unfold newDB. rewrite S. cbn [url_parse cut parse_main has_ctl String.eqb]. change (url_parse authority "") with (Some ""). cbn iota beta.
  destruct rules as [|r rs]; [congruence|]. cbn [newLoader]. apply FF in Ff. rewrite Ff. unfold open_db.
  replace (if String.eqb (l_name l) "" then "" else l_name l) with (l_name l) by (destruct (l_name l); reflexivity). now rewrite O.
Qed.
Definition contents (b : dbs) : list db := match b with One d => [d] | Multi l => l end.
Lemma sources_some src L : sources (fun s => newDB authority opens F s []) src = Some L -> Forall2 (list_of fmt) src L /\ forall d, In d L -> opens d = true.
Proof.
  revert L. induction src as [|s src IH]; intros L; cbn [sources].
  - intros X. injection X as <-. split; [constructor|now intros d []].
  - destruct (newDB authority opens F s []) as [d|] eqn:E; [|discriminate]. destruct (sources _ src) as [L'|]; [|discriminate]. intros X. injection X as <-.
    destruct (IH L' eq_refl) as [A B]. apply newDB_some in E as (O & Ff & N1 & N2 & _ & C). split.
    + constructor; [|exact A]. split; [exact Ff|]. auto.
    + intros x [<-|I]; auto.
Qed.
Lemma sources_made src L : (forall s, In s src -> usable (l_source s)) -> Forall2 (list_of fmt) src L -> (forall d, In d L -> opens d = true) ->
  sources (fun s => newDB authority opens F s []) src = Some L.
Proof.
  intros U H O. induction H as [|s d src L A B IH]; [reflexivity|]. cbn [sources]. rewrite (newDB_made s d); [|apply U; now left|exact A|apply O; now left].
  rewrite IH; [reflexivity| |]; intros y I; [apply U|apply O]; now right.
Qed.
Lemma lists_some static rules src b : l_source static = "" -> nonempty rules && nonempty src = false ->
  lists (newDB authority opens F) static rules src = Some b ->
  in_force fmt (l_name static) (l_format static) rules src (contents b) /\ forall d, In d (contents b) -> opens d = true.
Proof.
  intros S N. unfold lists. destruct rules as [|r rs].
  - destruct (sources _ src) as [L|] eqn:E; [|discriminate]. intros X. injection X as <-. apply sources_some in E as [A B]. cbn [contents]. split; [now apply if_sources|exact B].
  - destruct src; [|discriminate]. destruct (newDB authority opens F static (r :: rs)) as [d|] eqn:E; [|discriminate]. intros X. injection X as <-. cbn [contents].
    apply newDB_some in E as (O & Ff & N1 & N2 & R & _). split; [|intros x [<-|[]]; exact O].
    assert (d = Db (l_name static) (d_format d) (StaticLoader (r :: rs))) as ->.
    { specialize (R ltac:(discriminate)). destruct d as [n f rd]. cbn in *. subst rd. f_equal. destruct (l_name static) eqn:Z; [rewrite N2; auto|apply N1; congruence]. }
    cbn [d_format]. apply if_static; [discriminate|exact Ff].
Qed.
Lemma lists_made static rules src L : l_source static = "" -> (forall s, In s src -> usable (l_source s)) ->
  in_force fmt (l_name static) (l_format static) rules src L -> (forall d, In d L -> opens d = true) ->
  exists b, lists (newDB authority opens F) static rules src = Some b /\ contents b = L.
Proof.
  intros S U H O. destruct H as [rules f N Ff|src L H].
  - exists (One (Db (l_name static) f (StaticLoader rules))). split; [|reflexivity]. destruct rules as [|r rs]; [congruence|]. cbn [lists].
    rewrite (newDB_static static (r :: rs) f); auto. apply O. now left.
  - exists (Multi L). split; [|reflexivity]. cbn [lists]. now rewrite (sources_made src L U H O).
Qed.
End FORMATS.

(** *** Matching *)
Section MATCH.
Variable names : db -> msg -> option mres.
Variable addrs : db -> bytes -> option (string * string).
Notation nmatch := (name_match names).
Notation amatch := (addr_match addrs).
Lemma multi_first q L m : fine names q L -> first_listing names q L m -> Lists_model.multi_match (map names L) q = Some m.
Proof.
  intros Fi (pre & d & post & -> & N & E & O). induction pre as [|x pre IH]; cbn.
  - now rewrite E, O.
  - destruct (Fi x (or_introl eq_refl)) as (mx & X & _). rewrite X. destruct (mr_ok mx) eqn:Y; [exfalso; apply (N x (or_introl eq_refl)); now exists mx|].
    apply IH; intros y I; [apply Fi|apply N]; now right.
Qed.
Lemma first_or_none q L : fine names q L -> (exists m, first_listing names q L m) \/ (forall d, In d L -> ~ listing names q d).
Proof.
  intros Fi. induction L as [|d L IH]; [right; now intros d []|]. destruct (Fi d (or_introl eq_refl)) as (m & E & _). destruct (mr_ok m) eqn:O.
  - left. exists m, [], d, L. repeat split; auto.
  - destruct IH as [(m' & pre & d' & post & -> & N & E' & O')|N]; [intros y I; apply Fi; now right| |].
    + left. exists m', (d :: pre), d', post. repeat split; auto. intros x [<-|I]; [|auto]. intros (m2 & E2 & O2). congruence.
    + right. intros x [<-|I]; [|auto]. intros (m2 & E2 & O2). congruence.
Qed.
Lemma multi_none q L : fine names q L -> (forall d, In d L -> ~ listing names q d) -> Lists_model.multi_match (map names L) q = Some no_match.
Proof.
  intros Fi N. induction L as [|d L IH]; cbn; [reflexivity|]. destruct (Fi d (or_introl eq_refl)) as (m & E & _). rewrite E.
  destruct (mr_ok m) eqn:O; [exfalso; apply (N d (or_introl eq_refl)); now exists m|]. apply IH; intros y I; [apply Fi|apply N]; now right.
Qed.
Lemma first_fine q L m : fine names q L -> first_listing names q L m -> mr_ok m = true /\ mr_match m <> None /\ Forall (fun ip => ip = [] \/ ip_ok ip) (mr_ips m).
Proof.
  intros Fi (pre & d & post & -> & _ & E & O). destruct (Fi d) as (m' & E' & A & B); [apply in_or_app; right; now left|]. assert (m' = m) as -> by congruence. auto.
Qed.
Lemma match_first b q m : fine names q (contents b) -> first_listing names q (contents b) m -> nmatch b q = Some m.
Proof.
  destruct b as [d|L]; cbn [contents name_match]; intros Fi H; [|now apply multi_first].
  destruct H as (pre & d' & post & E & _ & M & _). destruct pre as [|x pre]; [now injection E as <- _|]. destruct pre; discriminate.
Qed.
Lemma match_none b q : fine names q (contents b) -> (forall d, In d (contents b) -> ~ listing names q d) -> exists m, nmatch b q = Some m /\ mr_ok m = false /\ Forall (fun ip => ip = [] \/ ip_ok ip) (mr_ips m).
Proof.
  destruct b as [d|L]; cbn [contents name_match]; intros Fi N.
  - destruct (Fi d (or_introl eq_refl)) as (m & E & _ & I). exists m. split; [exact E|]. destruct (mr_ok m) eqn:O; [exfalso; apply (N d (or_introl eq_refl)); now exists m|]. auto.
  - exists no_match. split; [now apply multi_none|]. split; [reflexivity|constructor].
Qed.
Lemma match_fine b q : fine names q (contents b) -> db_fine (nmatch b) q.
Proof.
  intros Fi. destruct (first_or_none q _ Fi) as [[m H]|N].
  - exists m. split; [now apply match_first|]. destruct (first_fine q _ m Fi H) as (_ & A & B). auto.
  - destruct (match_none b q Fi N) as (m & E & O & I). exists m. split; [exact E|]. split; [congruence|exact I].
Qed.
Lemma match_listed b q : fine names q (contents b) -> (listed (nmatch b) q <-> exists d, In d (contents b) /\ listing names q d).
Proof.
  intros Fi. split.
  - intros (m & E & O). destruct (first_or_none q _ Fi) as [[m' (pre & d & post & X & _ & Y & Z)]|N].
    + exists d. split; [rewrite X; apply in_or_app; right; now left|now exists m'].
    + destruct (match_none b q Fi N) as (m' & E' & O' & _). congruence.
  - intros (d & I & L). destruct (first_or_none q _ Fi) as [[m' H]|N]; [|destruct (N d I L)].
    exists m'. split; [now apply match_first|]. apply (first_fine q _ m' Fi H).
Qed.
Lemma addr_on b ip : on_list (amatch b) ip <-> addr_listed addrs (contents b) ip.
Proof.
  unfold on_list, addr_listed. destruct b as [d|L]; cbn [contents addr_match].
  - split; [intros [m E]; exists d, m; split; [now left|exact E]|intros (d' & m & [<-|[]] & E); now exists m].
  - induction L as [|d L IH]; cbn.
    + split; [intros [m E]; discriminate|intros (d & m & [] & _)].
    + destruct (addrs d ip) as [m|] eqn:E.
      * split; [intros _; exists d, m; split; [now left|exact E]|intros _; now exists m].
      * rewrite IH. split; [intros (d' & m & I & X); exists d', m; split; [now right|exact X]|].
        intros (d' & m & [<-|I] & X); [congruence|]. now exists d', m.
Qed.
End MATCH.
Lemma ede_made newTemplate code text t : newEDE newTemplate code text = Some t -> extended newTemplate code text (ede_of t).
Proof.
  unfold newEDE, extended. destruct (N.eqb code 0 && String.eqb text "") eqn:E.
  - intros X. injection X as <-. apply andb_prop in E as [A B]. apply N.eqb_eq in A. apply String.eqb_eq in B. left. auto.
  - destruct (newTemplate text) as [f|]; [|discriminate]. intros X. injection X as <-. right. split; [|now exists f].
    intros [-> ->]. discriminate.
Qed.
End CFG.
