(** The makers: what they look at, and when they succeed *)
From Verif Require Import Base Bytes Dns Net Cidr_spec Net_spec Router_spec.
From Verif Require ListCfg_model ListCfg_spec ModCfg_model ModCfg_spec ModCfg_proofs3 CacheCfg_model CacheCfg_spec CacheCfg_proofs3 ResCfg_model ResCfg_spec LCfg_model LCfg_spec LCfg_proofs Router_model Router_proofs.
From Verif Require Import Config_model Start_model Start_spec.
Local Open Scope string_scope.

Ltac eqs := repeat match goal with |- context [String.eqb ?a ?b] => destruct (String.eqb_spec a b) end.
Lemma some_none {A} (x : option A) : x <> None <-> exists y, x = Some y.
Proof. destruct x as [y|]; split; [eauto|discriminate|congruence|intros (y & H); discriminate H]. Qed.
Lemma map_none {A B} (f : A -> B) x : option_map f x <> None <-> x <> None.
Proof. destruct x; cbn; split; congruence. Qed.

(** *** Tables *)
Section T.
Context {R : Type}.
Variables T T' : string -> option R.
Lemma mlook_ext l : (forall r, In r l -> T r = T' r) -> ModCfg_model.lookup_all R T l = ModCfg_model.lookup_all R T' l.
Proof. induction l as [|n l IH]; intros H; cbn; [reflexivity|]. rewrite H by (left; reflexivity). rewrite IH by (intros r I; apply H; right; exact I). reflexivity. Qed.
Lemma clook_ext l : (forall r, In r l -> T r = T' r) -> CacheCfg_model.lookup_all R T l = CacheCfg_model.lookup_all R T' l.
Proof. induction l as [|n l IH]; intros H; cbn; [reflexivity|]. rewrite H by (left; reflexivity). rewrite IH by (intros r I; apply H; right; exact I). reflexivity. Qed.
Lemma look_all l gr : ModCfg_model.lookup_all R T l = Some gr <-> Forall2 (fun n x => T n = Some x) l gr.
Proof.
  revert gr. induction l as [|n l IH]; intros gr; cbn.
  - split; [intros H; injection H as <-; constructor|intros H; inversion H; reflexivity].
  - destruct (T n) as [r|] eqn:E; [|split; [discriminate|intros H; inversion H; congruence]]. destruct (ModCfg_model.lookup_all R T l) as [x|]; cbn.
    + split; [intros H; injection H as <-; constructor; [exact E|apply IH; reflexivity]|]. intros H. inversion H as [|? y ? l' A B]; subst. apply IH in B. congruence.
    + split; [discriminate|]. intros H. inversion H as [|? y ? l' A B]; subst. apply IH in B. discriminate B.
Qed.
Lemma look_some l : ModCfg_model.lookup_all R T l <> None <-> forall n, In n l -> T n <> None.
Proof.
  induction l as [|n l IH]; cbn; [split; [intros _ n []|discriminate]|]. destruct (T n) as [r|] eqn:E.
  - rewrite map_none, IH. split; [intros H x [<-|I]; [congruence|exact (H x I)]|intros H x I; apply H; auto].
  - split; [congruence|]. intros H. exfalso. exact (H n (or_introl eq_refl) E).
Qed.
End T.

Section S.
Context {CA Cert Key : Type}.
Variable w : world CA Cert Key.
Hypothesis PO : parse_ok (w_addr w).
Notation node := (node CA Cert).

(** *** What they look at *)
Lemma group_local id g (m m' : table node) : (forall n, mentions g n -> get n m = get n m') -> instantiateGroup CA Cert Key w id g m = instantiateGroup CA Cert Key w id g m'.
Proof.
  intros H. unfold instantiateGroup. cbv zeta.
  assert (L : forall r, In r (resolvers_of g) -> get r m = get r m') by (intros r I; apply H; left; exact I).
  assert (BA : get (ListCfg_model.g_allowlistResolver (g_lists g)) m = get (ListCfg_model.g_allowlistResolver (g_lists g)) m') by (apply H; right; auto).
  assert (BB : get (ListCfg_model.g_blocklistResolver (g_lists g)) m = get (ListCfg_model.g_blocklistResolver (g_lists g)) m') by (apply H; right; auto).
  assert (BL : get (ModCfg_model.s_limitResolver (g_mods g)) m = get (ModCfg_model.s_limitResolver (g_mods g)) m') by (apply H; right; auto).
  assert (BR : get (ModCfg_model.s_retryResolver (g_mods g)) m = get (ModCfg_model.s_retryResolver (g_mods g)) m') by (apply H; right; auto).
  rewrite (mlook_ext (fun n => get n m) (fun n => get n m') _ L). destruct (ModCfg_model.lookup_all node (fun n => get n m') (resolvers_of g)) as [gr|]; [|reflexivity].
  assert (EL : ListCfg_model.make (w_authority w) (w_opens w) (w_text w) node (fun n => get n m) id (g_type g) (lists g) gr = ListCfg_model.make (w_authority w) (w_opens w) (w_text w) node (fun n => get n m') id (g_type g) (lists g) gr).
  { unfold ListCfg_model.make, ListCfg_model.make_blocklist, ListCfg_model.make_blocklist_v2, ListCfg_model.make_response_ip, ListCfg_model.make_response_name, ListCfg_model.make_client.
    change (ListCfg_model.g_allowlistResolver (lists g)) with (ListCfg_model.g_allowlistResolver (g_lists g)). change (ListCfg_model.g_blocklistResolver (lists g)) with (ListCfg_model.g_blocklistResolver (g_lists g)).
    rewrite BA, BB. reflexivity. }
  rewrite EL. clear EL. destruct (ListCfg_model.make _ _ _ _ _ _ _ _ _) as [e|]; [reflexivity|].
  assert (EM : ModCfg_model.make node (fun n => get n m) (w_replace w) (w_record w) (w_template w) (w_text w) (w_addr w) (g_type g) (g_mods g) = ModCfg_model.make node (fun n => get n m') (w_replace w) (w_record w) (w_template w) (w_text w) (w_addr w) (g_type g) (g_mods g)).
  { unfold ModCfg_model.make. fold (resolvers_of g). rewrite (mlook_ext (fun n => get n m) (fun n => get n m') _ L). destruct (ModCfg_model.lookup_all node (fun n => get n m') (resolvers_of g)) as [gr'|]; [|reflexivity].
    rewrite BL, BR. reflexivity. }
  rewrite EM. clear EM. destruct (ModCfg_model.make _ _ _ _ _ _ _ _ _) as [e|]; [reflexivity|].
  assert (EC : CacheCfg_model.c_resolvers (caches g) = resolvers_of g) by (unfold caches; destruct (g_caches g); reflexivity).
  unfold CacheCfg_model.make. rewrite EC, (clook_ext (fun n => get n m) (fun n => get n m') _ L). reflexivity.
Qed.
Lemma router_local id l (m m' : table node) : (forall t, In t l -> get (t_resolver t) m = get (t_resolver t) m') -> instantiateRouter CA Cert Key w id l m = instantiateRouter CA Cert Key w id l m'.
Proof.
  intros H. unfold instantiateRouter. rewrite (mlook_ext (fun n => get n m) (fun n => get n m')); [reflexivity|]. intros r I. apply in_map_iff in I. destruct I as (t & <- & I). exact (H t I).
Qed.

(** *** When they succeed *)
Section OK.
Variable p : program.
Variable m : table node.
Notation T := (fun n => get n m).

Lemma known_in l n : known l n <> None <-> In n l.
Proof. unfold known. destruct (in_dec string_dec n l); split; congruence || tauto. Qed.
Lemma known_some l n u : known l n = Some u <-> In n l.
Proof. unfold known. destruct (in_dec string_dec n l); destruct u; split; congruence || tauto. Qed.

(** As the model has it *)
Definition loads0 (new : ListCfg_model.listcfg -> list string -> option ListCfg_model.db) (static : ListCfg_model.listcfg) (rules : list string) (src : list ListCfg_model.listcfg) : Prop :=
  (rules <> [] /\ src = [] /\ new static rules <> None) \/ (rules = [] /\ Forall (fun s => new s [] <> None) src).
Lemma lists_loads new static rules src : (ListCfg_model.nonempty rules && ListCfg_model.nonempty src)%bool = false /\ ListCfg_model.lists new static rules src <> None <-> loads0 new static rules src.
Proof.
  assert (S : ListCfg_model.sources (fun s => new s []) src <> None <-> Forall (fun s => new s [] <> None) src).
  { induction src as [|s src IH]; cbn; [split; [constructor|discriminate]|]. destruct (new s []) as [d|] eqn:E.
    - rewrite map_none, IH. split; [intros H; constructor; [congruence|exact H]|intros H; inversion H; assumption].
    - split; [congruence|intros H; inversion H; congruence]. }
  unfold loads0, ListCfg_model.lists. destruct rules as [|r rules]; cbn [ListCfg_model.nonempty andb].
  - rewrite map_none, S. split; [intros [_ H]; right; auto|]. intros [(H & _)|(_ & H)]; [congruence|auto].
  - rewrite map_none. destruct src as [|s src]; cbn [ListCfg_model.nonempty]; (split; [intros [A H]|intros [(A & B & H)|(A & _)]]); try discriminate; [left; repeat split; [discriminate|exact H]|split; [reflexivity|exact H]].
Qed.
(** In the words of C87 *)
Section LOADS.
Variable F : string -> option ListCfg_model.format.
Variable fmt : string -> ListCfg_model.format -> Prop.
Hypothesis FF : forall s f, F s = Some f <-> fmt s f.
Notation new := (ListCfg_model.newDB (w_authority w) (w_opens w) F).
Lemma new_source l : new l [] <> None <-> source_ok w l /\ exists d, ListCfg_spec.list_of fmt l d /\ w_opens w d = true.
Proof.
  split.
  - intros H. destruct (new l []) as [d|] eqn:E; [|congruence]. clear H. split.
    + unfold ListCfg_model.newDB in E. destruct (ListCfg_model.url_parse (w_authority w) (ListCfg_model.l_source l)) as [sch|] eqn:U; [|discriminate]. exists sch. split; [exact U|].
      unfold ListCfg_model.newLoader in E. destruct (String.eqb_spec sch "http") as [->|_]; [right; left; reflexivity|]. destruct (String.eqb_spec sch "https") as [->|_]; [right; right; left; reflexivity|].
      destruct (String.eqb_spec sch "") as [->|_]; [left; reflexivity|discriminate].
    + apply (ListCfg_proofs2.newDB_some _ _ F fmt FF) in E as (O & Ff & N1 & N2 & _ & C). exists d. split; [|exact O]. split; [exact Ff|]. split; [apply C; reflexivity|]. split; assumption.
  - intros ((sch & U & I) & d & (Ff & C & N1 & N2) & O). unfold ListCfg_model.newDB. rewrite U.
    assert (D : d = ListCfg_model.Db (if String.eqb (ListCfg_model.l_name l) "" then ListCfg_model.l_source l else ListCfg_model.l_name l) (ListCfg_model.d_format d) (ListCfg_model.d_reader d)).
    { destruct d as [n f r]. cbn in *. f_equal. destruct (String.eqb_spec (ListCfg_model.l_name l) ""); auto. }
    assert (NL : ListCfg_model.newLoader l [] sch = Some (ListCfg_model.d_reader d)).
    { unfold ListCfg_model.newLoader. destruct I as [<-|[<-|[<-|[]]]]; cbn [String.eqb Ascii.eqb Bool.eqb orb].
      - destruct C as [[H _]|[_ R]]; [|now rewrite R]. destruct (ListCfg_proofs.like_parse _ _ _ H U); discriminate.
      - destruct C as [[_ R]|[H _]]; [now rewrite R|]. destruct (H (ListCfg_proofs.parse_like _ _ _ U (or_introl eq_refl))).
      - destruct C as [[_ R]|[H _]]; [now rewrite R|]. destruct (H (ListCfg_proofs.parse_like _ _ _ U (or_intror eq_refl))). }
    rewrite NL. apply FF in Ff. rewrite Ff, <- D. unfold ListCfg_model.open_db. rewrite O. discriminate.
Qed.
Lemma new_static l rules : ListCfg_model.l_source l = "" -> rules <> [] ->
  (new l rules <> None <-> exists f, fmt (ListCfg_model.l_format l) f /\ w_opens w (ListCfg_model.Db (ListCfg_model.l_name l) f (ListCfg_model.StaticLoader rules)) = true).
Proof.
  intros S N. split.
  - intros H. destruct (new l rules) as [d|] eqn:E; [|congruence]. apply (ListCfg_proofs2.newDB_some _ _ F fmt FF) in E as (O & Ff & N1 & N2 & R & _). exists (ListCfg_model.d_format d). split; [exact Ff|].
    rewrite <- O. f_equal. specialize (R N). destruct d as [n f r]. cbn in *. subst r. f_equal. destruct (ListCfg_model.l_name l); [symmetry; rewrite N2; auto|symmetry; apply N1; discriminate].
  - intros (f & Ff & O). rewrite (ListCfg_proofs2.newDB_static _ _ F fmt FF l rules f S N Ff O). discriminate.
Qed.
Lemma loads_iff static rules src : ListCfg_model.l_source static = "" ->
  (loads0 new static rules src <-> loads w fmt (ListCfg_model.l_name static) (ListCfg_model.l_format static) rules src).
Proof.
  intros S. unfold loads0, loads. split.
  - intros [(N & -> & H)|(-> & H)].
    + apply (new_static _ _ S N) in H as (f & Ff & O). split; [constructor|]. eexists. split; [apply ListCfg_spec.if_static; eassumption|]. constructor; [exact O|constructor].
    + assert (X : Forall (source_ok w) src /\ exists L, Forall2 (ListCfg_spec.list_of fmt) src L /\ Forall (fun d => w_opens w d = true) L).
      { induction H as [|s src A B IH]; [split; [constructor|]; exists []; split; constructor|]. destruct IH as (P & L & Q1 & Q2). apply new_source in A as (A1 & d & A2 & A3).
        split; [constructor; assumption|]. exists (d :: L). split; constructor; assumption. }
      destruct X as (P & L & Q1 & Q2). split; [exact P|]. exists L. split; [apply ListCfg_spec.if_sources; exact Q1|exact Q2].
  - intros (P & L & I & O). destruct I as [rules f N Ff|src L A].
    + left. split; [exact N|]. split; [reflexivity|]. apply (new_static _ _ S N). exists f. split; [exact Ff|]. inversion O; assumption.
    + right. split; [reflexivity|]. induction A as [|s d src L A B IH]; [constructor|]. inversion P; subst. inversion O; subst. constructor; [|apply IH; assumption]. apply new_source. split; [assumption|]. exists d. split; assumption.
Qed.
Lemma loads_one l rules : (rules = [] \/ ListCfg_model.l_source l = "") /\ new l rules <> None <->
  (rules <> [] /\ ListCfg_model.l_source l = "" /\ loads w fmt (ListCfg_model.l_name l) (ListCfg_model.l_format l) rules []) \/
  (rules = [] /\ loads w fmt (ListCfg_model.l_name l) (ListCfg_model.l_format l) [] [l]).
Proof.
  assert (X : forall name f, loads w fmt name f [] [l] <-> new l [] <> None).
  { intros name f. rewrite new_source. unfold loads. split.
    - intros (P & L & I & O). inversion P; subst. inversion I as [|? ? A]; subst. inversion A as [|? d ? ? A1 A2]; subst. inversion O; subst. split; [assumption|]. exists d. split; assumption.
    - intros (P & d & A & O). split; [constructor; [exact P|constructor]|]. exists [d]. split; [apply ListCfg_spec.if_sources|]; constructor; assumption || constructor. }
  rewrite X. split.
  - intros [A B]. destruct rules as [|r rs]; [right; auto|]. left. split; [discriminate|]. destruct A as [A|A]; [discriminate|]. split; [exact A|]. apply loads_iff; [exact A|]. left. split; [discriminate|]. split; [reflexivity|exact B].
  - intros [(N & S & A)|(-> & A)]; [|split; [left; reflexivity|exact A]]. split; [right; exact S|]. apply (loads_iff _ _ _ S) in A as [(_ & _ & A)|(Z & _)]; [exact A|congruence].
Qed.
End LOADS.
Lemma ede_text g : ListCfg_model.newEDE (w_text w) (ModCfg_model.s_edeCode (g_mods g)) (ModCfg_model.s_edeText (g_mods g)) <> None <-> text_ok w g.
Proof.
  unfold ListCfg_model.newEDE, text_ok. destruct (N.eqb_spec (ModCfg_model.s_edeCode (g_mods g)) 0) as [E|E]; destruct (String.eqb_spec (ModCfg_model.s_edeText (g_mods g)) "") as [F|F]; cbn [andb].
  - split; [intros _; left; auto|discriminate].
  - rewrite map_none. tauto.
  - rewrite map_none. tauto.
  - rewrite map_none. tauto.
Qed.
Lemma make_lists {R} (U : string -> option R) id g gr : ListCfg_model.make (w_authority w) (w_opens w) (w_text w) R U id (g_type g) (lists g) gr <> None <->
  (exists up, gr = [up]) /\
  (let l := g_lists g in
  let by_name := ListCfg_model.newBlocklistDB (w_authority w) (w_opens w) in
  let by_addr x := ListCfg_model.newIPBlocklistDB (w_authority w) (w_opens w) x (ListCfg_model.g_locationDB l) in
  let block new static := loads0 new static (ListCfg_model.g_blocklist l) (ListCfg_model.g_blocklistSource l) in
  let static name := ListCfg_model.ListCfg name (ListCfg_model.g_blocklistFormat l) "" "" false in
   (g_type g = "blocklist" /\ (ListCfg_model.g_blocklist l = [] \/ ListCfg_model.g_source l = "") /\
      by_name (ListCfg_model.ListCfg id (ListCfg_model.g_format l) (ListCfg_model.g_source l) "" false) (ListCfg_model.g_blocklist l) <> None) \/
   (g_type g = "blocklist-v2" /\ block by_name (static id) /\ loads0 by_name (static "") (ListCfg_model.g_allowlist l) (ListCfg_model.g_allowlistSource l) /\ text_ok w g) \/
   (In (g_type g) ["response-blocklist-ip"; "response-blocklist-cidr"] /\ block by_addr (static id) /\ text_ok w g) \/
   (g_type g = "response-blocklist-name" /\ block by_name (static "")) \/
   (g_type g = "client-blocklist" /\ block by_addr (static id))).
Proof.
  cbv zeta. destruct gr as [|up [|up2 gr]].
  1, 3: split; [|intros ((x & H) & _); discriminate H]; intros H; exfalso; apply H; unfold ListCfg_model.make; eqs; reflexivity.
  assert (X : forall P, (exists u : R, [up] = [u]) /\ P <-> P) by (intros P; split; [tauto|]; intros K; split; [eauto|exact K]). rewrite X. clear X.
  rewrite <- !lists_loads, <- ede_text. unfold ListCfg_model.make. destruct g as [ty l md cc]. cbn [g_type g_lists g_mods lists].
  destruct (String.eqb_spec ty "blocklist") as [->|N1].
  { unfold ListCfg_model.make_blocklist, ListCfg_model.plain_list. cbn [lists g_type g_lists g_mods ListCfg_model.g_blocklist ListCfg_model.g_source ListCfg_model.g_format].
    split.
    - intros H. left. split; [reflexivity|]. destruct (ListCfg_model.nonempty (ListCfg_model.g_blocklist l) && negb (String.eqb (ListCfg_model.g_source l) ""))%bool eqn:B; [congruence|]. split.
      + destruct (ListCfg_model.g_blocklist l); [left; reflexivity|]. right. cbn in B. apply negb_false_iff, String.eqb_eq in B. exact B.
      + intros Q. rewrite Q in H. congruence.
    - intros [(_ & A & B)|[(Q & _)|[([Q|[Q|[]]] & _)|[(Q & _)|(Q & _)]]]]; try discriminate Q.
      assert (C : (ListCfg_model.nonempty (ListCfg_model.g_blocklist l) && negb (String.eqb (ListCfg_model.g_source l) ""))%bool = false) by (destruct A as [-> | ->]; [reflexivity|apply andb_false_r]). rewrite C.
      destruct (ListCfg_model.newBlocklistDB _ _ _ _); [discriminate|congruence]. }
  destruct (String.eqb_spec ty "blocklist-v2") as [->|N2].
  { unfold ListCfg_model.make_blocklist_v2, ListCfg_model.plain_list.
    cbn [lists g_type g_lists g_mods ListCfg_model.g_blocklist ListCfg_model.g_blocklistSource ListCfg_model.g_allowlist ListCfg_model.g_allowlistSource ListCfg_model.g_blocklistFormat ListCfg_model.g_edeCode ListCfg_model.g_edeText].
    split.
    - intros H. right. left. split; [reflexivity|]. destruct (ListCfg_model.nonempty (ListCfg_model.g_blocklist l) && ListCfg_model.nonempty (ListCfg_model.g_blocklistSource l))%bool; [congruence|].
      destruct (ListCfg_model.nonempty (ListCfg_model.g_allowlist l) && ListCfg_model.nonempty (ListCfg_model.g_allowlistSource l))%bool; [congruence|].
      destruct (ListCfg_model.lists _ _ (ListCfg_model.g_blocklist l) _); [|congruence]. destruct (ListCfg_model.lists _ _ (ListCfg_model.g_allowlist l) _); [|congruence]. destruct (ListCfg_model.newEDE _ _ _); [|congruence]. repeat split; discriminate.
    - intros [(Q & _)|[(_ & (A1 & A2) & (B1 & B2) & C)|[([Q|[Q|[]]] & _)|[(Q & _)|(Q & _)]]]]; try discriminate Q. rewrite A1, B1.
      destruct (ListCfg_model.lists _ _ (ListCfg_model.g_blocklist l) _); [|congruence]. destruct (ListCfg_model.lists _ _ (ListCfg_model.g_allowlist l) _); [|congruence]. destruct (ListCfg_model.newEDE _ _ _); [discriminate|congruence]. }
  destruct (String.eqb_spec ty "response-blocklist-ip") as [->|N3]; [|destruct (String.eqb_spec ty "response-blocklist-cidr") as [->|N4]]; cbn [orb].
  1, 2: unfold ListCfg_model.make_response_ip, ListCfg_model.plain_list; cbn [lists g_type g_lists g_mods ListCfg_model.g_blocklist ListCfg_model.g_blocklistSource ListCfg_model.g_locationDB ListCfg_model.g_blocklistFormat ListCfg_model.g_edeCode ListCfg_model.g_edeText]; split;
    [intros H; right; right; left; split; [cbn; auto|];
      destruct (ListCfg_model.nonempty (ListCfg_model.g_blocklist l) && ListCfg_model.nonempty (ListCfg_model.g_blocklistSource l))%bool; [congruence|];
      destruct (ListCfg_model.lists _ _ (ListCfg_model.g_blocklist l) _); [|congruence]; destruct (ListCfg_model.newEDE _ _ _); [|congruence]; repeat split; discriminate
    |intros [(Q & _)|[(Q & _)|[(_ & (A1 & A2) & C)|[(Q & _)|(Q & _)]]]]; try discriminate Q; rewrite A1; destruct (ListCfg_model.lists _ _ (ListCfg_model.g_blocklist l) _); [|congruence]; destruct (ListCfg_model.newEDE _ _ _); [discriminate|congruence]].
  destruct (String.eqb_spec ty "response-blocklist-name") as [->|N5].
  { unfold ListCfg_model.make_response_name, ListCfg_model.plain_list. cbn [lists g_type g_lists g_mods ListCfg_model.g_blocklist ListCfg_model.g_blocklistSource ListCfg_model.g_blocklistFormat]. split.
    - intros H. do 3 right. left. split; [reflexivity|]. destruct (ListCfg_model.nonempty (ListCfg_model.g_blocklist l) && ListCfg_model.nonempty (ListCfg_model.g_blocklistSource l))%bool; [congruence|].
      destruct (ListCfg_model.lists _ _ (ListCfg_model.g_blocklist l) _); [|congruence]. split; [reflexivity|discriminate].
    - intros [(Q & _)|[(Q & _)|[([Q|[Q|[]]] & _)|[(_ & A1 & A2)|(Q & _)]]]]; try discriminate Q. rewrite A1. destruct (ListCfg_model.lists _ _ (ListCfg_model.g_blocklist l) _); [discriminate|congruence]. }
  destruct (String.eqb_spec ty "client-blocklist") as [->|N6].
  { unfold ListCfg_model.make_client, ListCfg_model.plain_list. cbn [lists g_type g_lists g_mods ListCfg_model.g_blocklist ListCfg_model.g_blocklistSource ListCfg_model.g_blocklistFormat ListCfg_model.g_locationDB]. split.
    - intros H. do 4 right. split; [reflexivity|]. destruct (ListCfg_model.nonempty (ListCfg_model.g_blocklist l) && ListCfg_model.nonempty (ListCfg_model.g_blocklistSource l))%bool; [congruence|].
      destruct (ListCfg_model.lists _ _ (ListCfg_model.g_blocklist l) _); [|congruence]. split; [reflexivity|discriminate].
    - intros [(Q & _)|[(Q & _)|[([Q|[Q|[]]] & _)|[(Q & _)|(_ & A1 & A2)]]]]; try discriminate Q. rewrite A1. destruct (ListCfg_model.lists _ _ (ListCfg_model.g_blocklist l) _); [discriminate|congruence]. }
  split; [congruence|]. intros [(Q & _)|[(Q & _)|[([Q|[Q|[]]] & _)|[(Q & _)|(Q & _)]]]]; congruence.
Qed.

(** Only which names there are matters *)
Lemma mods_move {R R'} (U : string -> option R) (U' : string -> option R') an rn pr cl ty an' rn' pr' cl' ty' type (g : ModCfg_model.settings) :
  (forall n, In n (ModCfg_model.s_resolvers g) \/ n = ModCfg_model.s_retryResolver g -> U n <> None -> U' n <> None) ->
  ModCfg_spec.startable (mworld w U an rn pr cl ty) type g -> ModCfg_spec.startable (mworld w U' an' rn' pr' cl' ty') type g.
Proof.
  intros H.
  assert (A : (exists r, ModCfg_spec.only (mworld w U an rn pr cl ty) g r) -> exists r, ModCfg_spec.only (mworld w U' an' rn' pr' cl' ty') g r).
  { intros (r & n & E & Q). cbn in Q. assert (X : U' n <> None) by (apply H; [left; rewrite E; left; reflexivity|congruence]). apply some_none in X. destruct X as (r' & X). exists r', n. auto. }
  assert (B : (exists l, ModCfg_spec.several (mworld w U an rn pr cl ty) g l) -> exists l, ModCfg_spec.several (mworld w U' an' rn' pr' cl' ty') g l).
  { unfold ModCfg_spec.several. cbn. intros (l & F). apply look_all in F. assert (X : ModCfg_model.lookup_all R' U' (ModCfg_model.s_resolvers g) <> None); [|apply some_none in X; destruct X as (l' & X); exists l'; apply look_all; exact X].
    apply look_some. intros n I. apply H; [left; exact I|]. assert (Y : ModCfg_model.lookup_all R U (ModCfg_model.s_resolvers g) <> None) by congruence. exact (proj1 (look_some U _) Y n I). }
  assert (C : U (ModCfg_model.s_retryResolver g) <> None -> U' (ModCfg_model.s_retryResolver g) <> None) by (apply H; right; reflexivity).
  unfold ModCfg_spec.startable. cbn [mworld ModCfg_spec.w_regexp ModCfg_spec.w_record ModCfg_spec.w_template ModCfg_spec.w_text ModCfg_spec.w_addr ModCfg_spec.w_resolvers]. tauto.
Qed.
Lemma caches_move {R R'} (U : string -> option R) (U' : string -> option R') type (g : CacheCfg_model.settings) :
  (forall n, In n (CacheCfg_model.c_resolvers g) -> U n <> None -> U' n <> None) ->
  CacheCfg_spec.startable (cworld w U) g type -> CacheCfg_spec.startable (cworld w U') g type.
Proof.
  intros H.
  assert (A : forall up, CacheCfg_spec.only (cworld w U) g up -> exists r, CacheCfg_spec.only (cworld w U') g r).
  { intros r (n & E & Q). cbn in Q. assert (X : U' n <> None) by (apply H; [rewrite E; left; reflexivity|congruence]). apply some_none in X. destruct X as (r' & X). exists r', n. auto. }
  assert (B : forall l, CacheCfg_spec.several (cworld w U) g l -> exists l, CacheCfg_spec.several (cworld w U') g l).
  { unfold CacheCfg_spec.several. cbn. intros l F. apply look_all in F. assert (X : ModCfg_model.lookup_all R' U' (CacheCfg_model.c_resolvers g) <> None); [|apply some_none in X; destruct X as (l' & X); exists l'; apply look_all; exact X].
    apply look_some. intros n I. apply H; [exact I|]. assert (Y : ModCfg_model.lookup_all R U (CacheCfg_model.c_resolvers g) <> None) by congruence. exact (proj1 (look_some U _) Y n I). }
  intros S. destruct S as [up O|up O|up O|up O|l s O|up O];
    [destruct (A up O) as [r O'] | destruct (A up O) as [r O'] | destruct (A up O) as [r O'] | destruct (A up O) as [r O'] | destruct (B l O) as [r O'] | destruct (A up O) as [r O']].
  - exact (CacheCfg_spec.St_syslog _ _ r O' H0).
  - exact (CacheCfg_spec.St_cache _ _ r O' H0 H1 H2).
  - exact (CacheCfg_spec.St_prefetch _ _ r O').
  - exact (CacheCfg_spec.St_querylog _ _ r O' H0 H1).
  - exact (CacheCfg_spec.St_lua _ _ r s O' H0 H1 H2 H3).
  - exact (CacheCfg_spec.St_validator _ _ r O').
Qed.

Lemma caches_resolvers g : CacheCfg_model.c_resolvers (caches g) = resolvers_of g.
Proof. unfold caches. destruct (g_caches g); reflexivity. Qed.
Definition an0 : node -> msg -> client -> result := fun _ _ _ => Err "".
Lemma group_accepted id g : (forall n, mentions g n -> (get n m <> None <-> In n (names p))) -> (instantiateGroup CA Cert Key w id g m <> None <-> group_ok w p id g).
Proof.
  intros D.
  assert (L : forall n, In n (resolvers_of g) -> (get n m <> None <-> In n (names p))) by (intros n I; apply D; left; exact I).
  assert (RT : get (ModCfg_model.s_retryResolver (g_mods g)) m <> None <-> In (ModCfg_model.s_retryResolver (g_mods g)) (names p)) by (apply D; do 4 right; reflexivity).
  set (MW := mworld w T an0 (fun _ => 0%N) (fun _ _ => []) (fun _ => "") (fun _ => "")).
  assert (M : ModCfg_model.make node T (w_replace w) (w_record w) (w_template w) (w_text w) (w_addr w) (g_type g) (g_mods g) <> None <-> ModCfg_spec.startable (mknown w p) (g_type g) (g_mods g)).
  { pose proof (ModCfg_proofs3.started MW (g_type g) (g_mods g) PO) as S. unfold ModCfg_spec.made in S. cbn in S. rewrite S. clear S. split; apply mods_move; intros n [I| ->] X.
    - apply known_in, L; assumption.
    - apply known_in, RT, X.
    - apply known_in in X. apply L; assumption.
    - apply known_in in X. apply RT, X. }
  assert (C : CacheCfg_model.make node T (w_file w) (w_append w) (w_compile w) (w_first w) (g_type g) (caches g) <> None <-> CacheCfg_spec.startable (cworld w (known (names p))) (caches g) (g_type g)).
  { pose proof (CacheCfg_proofs3.started (cworld w T) (g_type g) (caches g)) as S. unfold CacheCfg_spec.made in S. cbn in S. rewrite S. clear S. split; apply caches_move; rewrite caches_resolvers; intros n I X.
    - apply known_in, L; assumption.
    - apply known_in in X. apply L; assumption. }
  unfold instantiateGroup, group_ok. cbv zeta. rewrite <- M, <- C.
  destruct (ModCfg_model.lookup_all node T (resolvers_of g)) as [gr|] eqn:LA.
  - pose proof (make_lists T id g gr) as ML.
    assert (LO : ListCfg_model.make (w_authority w) (w_opens w) (w_text w) node T id (g_type g) (lists g) gr <> None <-> lists_ok w p id g).
    { rewrite ML. unfold lists_ok. cbv zeta. assert (U : (exists up, gr = [up]) <-> exists n, resolvers_of g = [n] /\ In n (names p)); [|rewrite U; clear; set (l := g_lists g);
        pose proof (loads_iff _ _ ListCfg_proofs2.name_format_iff) as LN; pose proof (loads_iff _ _ (ListCfg_proofs2.addr_format_iff (ListCfg_model.g_locationDB l))) as LD;
        pose proof (loads_one _ _ ListCfg_proofs2.name_format_iff (ListCfg_model.ListCfg id (ListCfg_model.g_format l) (ListCfg_model.g_source l) "" false) (ListCfg_model.g_blocklist l)) as L1; cbn [ListCfg_model.l_source ListCfg_model.l_name ListCfg_model.l_format] in L1;
        pose proof (fun name => LN (ListCfg_model.ListCfg name (ListCfg_model.g_blocklistFormat l) "" "" false)) as LN'; pose proof (fun name => LD (ListCfg_model.ListCfg name (ListCfg_model.g_blocklistFormat l) "" "" false)) as LD';
        cbn [ListCfg_model.l_source ListCfg_model.l_name ListCfg_model.l_format] in LN', LD';
        unfold ListCfg_model.newBlocklistDB, ListCfg_model.newIPBlocklistDB; rewrite <- L1, <- !LN' by reflexivity; rewrite <- !LD' by reflexivity; reflexivity].
      apply look_all in LA. split.
      - intros (up & ->). inversion LA as [|n ? l ? A B E1 E2]; subst. inversion B; subst. exists n. split; [reflexivity|]. apply L; [rewrite <- E1; left; reflexivity|congruence].
      - intros (n & E & _). rewrite E in LA. inversion LA as [|? up ? ? A B]; subst. inversion B; subst. eauto. }
    rewrite <- LO. destruct (ListCfg_model.make _ _ _ _ _ _ _ _ _) as [e|]; [split; [left; discriminate|discriminate]|].
    destruct (ModCfg_model.make _ _ _ _ _ _ _ _ _) as [e|]; [split; [right; left; discriminate|discriminate]|]. rewrite map_none. split; [tauto|intros [H|[H|H]]; congruence].
  - split; [congruence|]. intros X. exfalso.
    assert (N : ~ forall n, In n (resolvers_of g) -> get n m <> None) by (rewrite <- (look_some T); intros H; exact (H LA)).
    destruct X as [X|[X|X]].
    + destruct X as ((n & E & I) & _). apply N. rewrite E. intros n' [<-|[]]. apply L; [rewrite E; left; reflexivity|exact I].
    + apply X. unfold ModCfg_model.make. fold (resolvers_of g). rewrite LA. reflexivity.
    + apply X. unfold CacheCfg_model.make. rewrite caches_resolvers. change (CacheCfg_model.lookup_all node T (resolvers_of g)) with (ModCfg_model.lookup_all node T (resolvers_of g)). rewrite LA. reflexivity.
Qed.
End OK.
End S.
