(** What a program that runs consists of *)
From Verif Require Import Base Bytes Dns Net Cidr_spec Net_spec Router_spec.
From Verif Require ListCfg_model ListCfg_spec ModCfg_model ModCfg_spec CacheCfg_model CacheCfg_spec ResCfg_model ResCfg_spec LCfg_model LCfg_spec Router_model Router_proofs.
From Verif Require Config_spec Config_proofs.
From Verif Require Import Config_model Start_model Start_spec Start_proofs Start_proofs2 Start_proofs3 Start_proofs4.
From Coq Require Import Relations.
Local Open Scope string_scope.

Lemma perm_forall2 {A B} (R : A -> B -> Prop) l1 l2 k1 k2 : (forall a x y, In a l1 -> R a x -> R a y -> x = y) -> Permutation l1 l2 -> Forall2 R l1 k1 -> Forall2 R l2 k2 -> Permutation k1 k2.
Proof.
  intros F P A1 A2. destruct (Permutation_Forall2 P A1) as (k & P' & A3). assert (E : k = k2); [|subst k; exact P'].
  assert (G : forall a x y, In a l2 -> R a x -> R a y -> x = y) by (intros a x y I; apply F; exact (Permutation_in _ (Permutation_sym P) I)). clear - A2 A3 G. revert k2 A2. induction A3 as [|a x l k H A3 IH]; intros k2 A2; inversion A2; subst; [reflexivity|].
  f_equal; [eapply G; [left; reflexivity| |]; eassumption|]. apply IH; [|assumption]. intros b u v I. apply G. right. exact I.
Qed.
Lemma find_perm {A} (l l' : list (string * A)) id : NoDup (map fst l) -> Permutation l l' -> find_id id l = find_id id l'.
Proof.
  intros N P. assert (N' : NoDup (map fst l')) by (eapply Permutation_NoDup; [apply Permutation_map, P|exact N]). destruct (in_dec string_dec id (map fst l)) as [I|I].
  - apply in_map_iff in I. destruct I as ((i & x) & E & I). cbn in E. subst i. rewrite (find_in l id x N I). rewrite (find_in l' id x N' (Permutation_in _ P I)). reflexivity.
  - rewrite (find_out l id I). symmetry. apply find_out. intros J. apply I. exact (Permutation_in _ (Permutation_sym (Permutation_map fst P)) J).
Qed.

Section S.
Context {CA Cert Key : Type}.
Variable w : world CA Cert Key.
Notation node := (node CA Cert).

(** *** Elements *)
Lemma group_made id g (m : table node) o : instantiateGroup CA Cert Key w id g m = Some o -> get id m = Some o -> made_group w (fun n => get n m) id g.
Proof.
  unfold instantiateGroup. cbv zeta. destruct (ModCfg_model.lookup_all node (fun n => get n m) (resolvers_of g)) as [gr|] eqn:L; [|discriminate]. intros H G. exists gr. split; [apply look_all, L|].
  destruct (ListCfg_model.make (w_authority w) (w_opens w) (w_text w) node (fun n => get n m) id (g_type g) (lists g) gr) as [e|] eqn:E1.
  - injection H as <-. left. exists e. split; [exact G|]. intros. exact E1.
  - destruct (ModCfg_model.make node (fun n => get n m) (w_replace w) (w_record w) (w_template w) (w_text w) (w_addr w) (g_type g) (g_mods g)) as [e|] eqn:E2.
    + injection H as <-. right. left. exists e. split; [exact G|]. intros. exact E2.
    + destruct (CacheCfg_model.make node (fun n => get n m) (w_file w) (w_append w) (w_compile w) (w_first w) (g_type g) (caches g)) as [e|] eqn:E3; [|discriminate H]. injection H as <-. right. right. exists e. split; [exact G|]. exact E3.
Qed.
Lemma router_made id l (m : table node) o : instantiateRouter CA Cert Key w id l m = Some o -> get id m = Some o -> made_router w (fun n => get n m) id l.
Proof.
  unfold instantiateRouter. destruct (ModCfg_model.lookup_all node (fun n => get n m) (map t_resolver l)) as [to|] eqn:L; [|discriminate].
  destruct (Router_model.instantiateRouter (w_match w) (w_addr w) (w_type w) (entries 0 l)) as [rs|] eqn:E; [|discriminate]. intros H G. injection H as <-. exists to, rs. split; [apply look_all, L|]. split; [exact G|].
  exists (entries 0 l). split; [exact E|]. split; [apply entries_length|]. intros i t I. exists (entry i t). split; [exact (entries_nth l 0 i t I)|]. repeat split.
Qed.
Lemma routed (T : string -> option node) id l : parse_ok (w_addr w) -> made_router w T id l ->
  exists rs to, T id = Some (NRouter CA Cert id rs to) /\ forall answer now q ci x more,
  m_question q = x :: more -> ci_ip ci = [] \/ ip_ok (ci_ip ci) -> (forall y, subnet_addr q y -> y = [] \/ ip_ok y) -> (forall i, 0 <= Router_model.lt_minute (now i) <= 59)%Z ->
  (exists i t y, nth_error l i = Some t /\ taken w now q ci x i t /\ (forall j t', (j < i)%nat -> nth_error l j = Some t' -> ~ taken w now q ci x j t') /\
     T (t_resolver t) = Some y /\ nth_error to i = Some y /\
     Router_model.router_resolve (fun i => match nth_error to i with Some y => answer y | None => fun _ _ => Err "" end) now rs q ci = Some ([(i, q)], answer y q ci)) \/
  ((forall j t', nth_error l j = Some t' -> ~ taken w now q ci x j t') /\ exists s,
     Router_model.router_resolve (fun i => match nth_error to i with Some y => answer y | None => fun _ _ => Err "" end) now rs q ci = Some ([], Err s)).
Proof.
  intros PO (to & rs & F & G & en & E & LE & NE). exists rs, to. split; [exact G|]. intros answer now q ci x more Q CI SA TM.
  assert (TK : forall i t e, nth_error l i = Some t -> nth_error en i = Some e -> (takes (w_match w) (w_addr w) (w_type w) now q ci x i e <-> taken w now q ci x i t) /\ Router_model.rc_resolver (Router_model.re_cfg e) = i).
  { intros i t e I J. destruct (NE i t I) as (e' & J' & A & B & C). assert (e' = e) by congruence. subst e'. unfold takes, taken. rewrite A, B, C. cbn [Router_model.rc_types Router_model.rc_class Router_model.rc_name Router_model.rc_source Router_model.rc_ecs Router_model.rc_dohpath Router_model.rc_listener Router_model.rc_tls Router_model.rc_weekdays Router_model.rc_before Router_model.rc_after Router_model.rc_resolver].
    split; [|reflexivity]. destruct (String.eqb_spec (t_type t) "") as [Z|Z]; [rewrite Z, app_nil_r; reflexivity|]. destruct (t_type t) as [|c s]; [contradiction|]. reflexivity. }
  assert (EN : forall i e, nth_error en i = Some e -> exists t, nth_error l i = Some t).
  { intros i e I. destruct (nth_error l i) as [t|] eqn:X; [eauto|]. apply nth_error_None in X. assert (nth_error en i <> None) by congruence. apply nth_error_Some in H. lia. }
  set (res := fun i => match nth_error to i with Some y => answer y | None => fun (_ : msg) (_ : client) => Err "" end).
  destruct (Router_proofs.router_spec (w_match w) (w_addr w) (w_type w) PO res now en rs q ci x more E Q CI SA TM) as [(i & e & I & TA & FI & R)|(NO & s & R)].
  - left. destruct (EN i e I) as (t & It). destruct (TK i t e It I) as (W & RI). rewrite RI in R.
    assert (Y : exists y, T (t_resolver t) = Some y /\ nth_error to i = Some y).
    { clear - F It. revert l to F It. induction i as [|i IH]; intros l to F It; destruct l as [|a l]; try discriminate It; cbn in F; inversion F as [|? y ? to' A B]; subst; cbn in It |- *; [injection It as ->; eauto|]. exact (IH l to' B It). }
    destruct Y as (y & Ty & Ny). exists i, t, y. split; [exact It|]. split; [apply W, TA|]. split; [|split; [exact Ty|split; [exact Ny|]]].
    + intros j t' Lj Ij. destruct (NE j t' Ij) as (e' & Je & _). rewrite <- (proj1 (TK j t' e' Ij Je)). exact (FI j e' Lj Je).
    + etransitivity; [exact R|]. unfold res. rewrite Ny. reflexivity.
  - right. split; [|exists s; exact R]. intros j t' Ij. destruct (NE j t' Ij) as (e' & Je & _). rewrite <- (proj1 (TK j t' e' Ij Je)). exact (NO j e' Je).
Qed.

(** *** Who is asked *)
Lemma asks_held T q ci x y : @asks CA Cert Key w T q ci x y -> In y (holds x).
Proof.
  intros [id e z nm ad an kv rnd l r H I|id e z an rn pr cl ty l r q' H I|id e z H|id e z ip h H|id z|id e z H|id rs to an now l r i q' z H I N].
  - unfold ListCfg_spec.ask, ListCfg_model.element_resolve in H. cbv zeta in H. match type of H with option_map _ ?x = _ => destruct x as [rn|]; [|discriminate H] end. cbn [option_map] in H. injection H as <- <-. apply in_map_iff in I. destruct I as (c & <- & _).
    destruct c as [[t c1] c2]. cbn [fst]. unfold ListCfg_model.asked. cbn [holds]. unfold Node in *. destruct t; [left; reflexivity| |]; [destruct (ListCfg_model.e_allowRes _ e)|destruct (ListCfg_model.e_blockRes _ e)]; try (left; reflexivity); right; apply in_or_app; cbn; auto.
  - unfold ModCfg_spec.does, ModCfg_model.ask in H. cbv zeta in H.
    destruct e; try discriminate H; cbn [holds]; repeat match type of H with option_map _ ?x = _ => destruct x; [|discriminate H]; cbn [option_map] in H end; injection H as <- <-;
      try (destruct I as [I|[]]; injection I as <- <-; left; reflexivity); try destruct I.
    + apply in_app_or in I. destruct I as [I|I]; apply in_map_iff in I; destruct I as (u & E & _); injection E as <- <-; cbn; auto.
    + apply in_map_iff in I. destruct I as (u & E & _). injection E as <- <-. left. reflexivity.
  - destruct e; cbn [ModCfg_model.members] in H; try destruct H; exact H.
  - destruct e; cbn [ModCfg_model.rate] in H; try destruct H. apply in_map_iff in H. destruct H as (u & E & _). cbn [holds]. destruct u; try discriminate E; injection E as E; [left; exact E|]. subst limit. right. left. reflexivity.
  - left. reflexivity.
  - exact H.
  - cbn [holds]. exact (nth_error_In _ _ N).
Qed.
(** The elements of an element come from the table, by the names in its settings *)
Lemma group_holds id g (m : table node) x y : instantiateGroup CA Cert Key w id g m = Some x -> In y (holds x) -> exists n, mentions g n /\ get n m = Some y.
Proof.
  unfold instantiateGroup. cbv zeta. destruct (ModCfg_model.lookup_all node (fun n => get n m) (resolvers_of g)) as [gr|] eqn:L; [|discriminate].
  assert (GR : forall z, In z gr -> exists n, mentions g n /\ get n m = Some z).
  { intros z I. apply look_all in L. clear - L I. unfold mentions. induction L as [|n u l gr A F IH]; [destruct I|]. destruct I as [<-|I]; [exists n; split; [left; left; reflexivity|exact A]|]. destruct (IH I) as (n' & M & G). exists n'. split; [|exact G]. destruct M as [M|M]; [left; right; exact M|right; exact M]. }
  destruct (ListCfg_model.make (w_authority w) (w_opens w) (w_text w) node (fun n => get n m) id (g_type g) (lists g) gr) as [e|] eqn:E1.
  { intros H I. injection H as <-. cbn [holds] in I.
    assert (X : In (ListCfg_model.e_up _ e) gr /\ (ListCfg_model.e_blockRes _ e = None \/ ListCfg_model.e_blockRes _ e = get (ListCfg_model.g_blocklistResolver (g_lists g)) m) /\ (ListCfg_model.e_allowRes _ e = None \/ ListCfg_model.e_allowRes _ e = get (ListCfg_model.g_allowlistResolver (g_lists g)) m)).
    { revert E1. unfold ListCfg_model.make, ListCfg_model.make_blocklist, ListCfg_model.make_blocklist_v2, ListCfg_model.make_response_ip, ListCfg_model.make_response_name, ListCfg_model.make_client.
      change (ListCfg_model.g_allowlistResolver (lists g)) with (ListCfg_model.g_allowlistResolver (g_lists g)). change (ListCfg_model.g_blocklistResolver (lists g)) with (ListCfg_model.g_blocklistResolver (g_lists g)).
      clear. intros E1. repeat match type of E1 with context [match ?x with _ => _ end] => destruct x; try discriminate E1 end; injection E1 as <-; cbn; auto. }
    destruct X as (U & B & A). destruct I as [<-|I]; [exact (GR _ U)|]. apply in_app_or in I. destruct I as [I|I].
    - destruct B as [B|B]; rewrite B in I; [destruct I|]. destruct (get (ListCfg_model.g_blocklistResolver (g_lists g)) m) as [z|] eqn:Z; [|destruct I]. destruct I as [<-|[]]. exists (ListCfg_model.g_blocklistResolver (g_lists g)). split; [right; right; left; reflexivity|exact Z].
    - destruct A as [A|A]; rewrite A in I; [destruct I|]. destruct (get (ListCfg_model.g_allowlistResolver (g_lists g)) m) as [z|] eqn:Z; [|destruct I]. destruct I as [<-|[]]. exists (ListCfg_model.g_allowlistResolver (g_lists g)). split; [right; left; reflexivity|exact Z]. }
  destruct (ModCfg_model.make node (fun n => get n m) (w_replace w) (w_record w) (w_template w) (w_text w) (w_addr w) (g_type g) (g_mods g)) as [e|] eqn:E2.
  { intros H I. injection H as <-.
    assert (X : In y gr \/ get (ModCfg_model.s_limitResolver (g_mods g)) m = Some y \/ get (ModCfg_model.s_retryResolver (g_mods g)) m = Some y).
    { revert E2 I. unfold ModCfg_model.make. fold (resolvers_of g). rewrite L. unfold ModCfg_model.one. clear. intros E2 I. cbn [holds] in I.
      repeat match type of E2 with
             | (if ?x then _ else _) = _ => destruct x
             | match ?x with _ => _ end = _ => destruct x eqn:?; try discriminate E2
             | option_map _ ?x = _ => destruct x eqn:?; [cbn [option_map] in E2|discriminate E2]
             end; try discriminate E2; injection E2 as <-; cbn [some In app] in I |- *; try tauto.
      all: try (destruct I as [I|I]; [subst; cbn; auto|]; try contradiction).
      - destruct I as [<-|[]]. auto.
      - destruct (get (ModCfg_model.s_limitResolver (g_mods g)) m) as [z|]; [|destruct I]. destruct I as [<-|[]]. auto. }
    destruct X as [X|[X|X]]; [exact (GR _ X)| |].
    - exists (ModCfg_model.s_limitResolver (g_mods g)). split; [do 3 right; left; reflexivity|exact X].
    - exists (ModCfg_model.s_retryResolver (g_mods g)). split; [do 4 right; reflexivity|exact X]. }
  destruct (CacheCfg_model.make node (fun n => get n m) (w_file w) (w_append w) (w_compile w) (w_first w) (g_type g) (caches g)) as [e|] eqn:E3; [|discriminate].
  intros H I. injection H as <-. apply GR. revert E3 I. unfold CacheCfg_model.make. rewrite caches_resolvers. change (CacheCfg_model.lookup_all node (fun n => get n m) (resolvers_of g)) with (ModCfg_model.lookup_all node (fun n => get n m) (resolvers_of g)). rewrite L.
  unfold CacheCfg_model.one, CacheCfg_model.newCache, CacheCfg_model.newPrefetch, CacheCfg_model.newQueryLog, CacheCfg_model.newLua. cbv zeta. clear. intros E3 I.
  repeat match type of E3 with
         | (if ?x then _ else _) = _ => destruct x
         | match ?x with _ => _ end = _ => destruct x eqn:?; try discriminate E3
         | option_map _ ?x = _ => destruct x eqn:?; [cbn [option_map] in E3|discriminate E3]
         end; try discriminate E3; injection E3 as <-; cbn [holds some In app] in I |- *; tauto.
Qed.
Lemma router_holds id l (m : table node) x y : instantiateRouter CA Cert Key w id l m = Some x -> In y (holds x) -> exists t, In t l /\ get (t_resolver t) m = Some y.
Proof.
  unfold instantiateRouter. destruct (ModCfg_model.lookup_all node (fun n => get n m) (map t_resolver l)) as [to|] eqn:L; [|discriminate].
  destruct (Router_model.instantiateRouter (w_match w) (w_addr w) (w_type w) (entries 0 l)) as [rs|]; [|discriminate]. intros H I. injection H as <-. cbn [holds] in I. apply look_all in L.
  revert to L I. induction l as [|t l IH]; intros to L I; cbn in L; inversion L as [|? z ? to' A B]; subst; [destruct I|]. destruct I as [<-|I]; [exists t; split; [left; reflexivity|exact A]|]. destruct (IH to' B I) as (t' & J & G). exists t'. split; [right; exact J|exact G].
Qed.
End S.

(** *** Both together *)
Section RUN.
Context {CA Cert Key : Type}.
Variable w : world CA Cert Key.
Hypothesis PO : parse_ok (w_addr w).
Notation node := (node CA Cert).

Section ONE.
Variable p : program.
Hypothesis HE : ~ In "" (names p).
Variable rnd : string -> option bytes.
Variable m : table node.
Variable ls : list (pending CA Cert Key).
Variable oc : list string.
Variable b : option (ResCfg_model.client CA Cert).
Variable built : list string.
Hypothesis K : running w p rnd m ls oc b built.
Notation T := (fun n => get n m).

Lemma elements : (forall id r, In (id, r) (p_resolvers p) -> made_resolver w T b id r) /\ (forall id g, In (id, g) (p_groups p) -> made_group w T id g) /\ (forall id l, In (id, l) (p_routers p) -> made_router w T id l).
Proof.
  destruct (find_names p (k_names _ _ _ _ _ _ _ _ K)) as (F1 & F2 & F3).
  assert (IN : forall id, In id (names p) -> exists o, get id m = Some o /\ inst CA Cert Key w p b id m = Some o) by exact (k_made _ _ _ _ _ _ _ _ K).
  unfold inst in IN. split; [|split].
  - intros id r I. destruct (IN id) as (o & G & H); [unfold names; apply in_or_app; left; exact (in_map fst _ _ I)|]. rewrite (F1 id r I) in H. destruct (ResCfg_model.instantiateResolver CA Cert (w_res w b) r) as [c|] eqn:E; [|discriminate H]. injection H as <-. exists c. split; [exact G|exact E].
  - intros id g I. destruct (IN id) as (o & G & H); [unfold names; apply in_or_app; right; apply in_or_app; left; exact (in_map fst _ _ I)|]. destruct (F2 id g I) as (X & Y). rewrite X, Y in H. exact (group_made w id g m o H G).
  - intros id l I. destruct (IN id) as (o & G & H); [unfold names; apply in_or_app; right; apply in_or_app; right; exact (in_map fst _ _ I)|]. destruct (F3 id l I) as (X & Y & Z). rewrite X, Y, Z in H. exact (router_made w id l m o H G).
Qed.
Lemma empty_none : get "" m = None.
Proof. rewrite (k_rest _ _ _ _ _ _ _ _ K "" HE). unfold booting. destruct b; reflexivity. Qed.
Lemma step_uses a x y : get a m = Some x -> In y (holds x) -> exists n, uses p a n /\ get n m = Some y.
Proof.
  intros G I. destruct (in_dec string_dec a (names p)) as [J|J].
  - destruct (k_made _ _ _ _ _ _ _ _ K a J) as (o & G' & H). assert (o = x) by congruence. subst o.
    assert (NE : forall n, get n m = Some y -> n <> "") by (intros n Q ->; rewrite empty_none in Q; discriminate Q).
    unfold inst in H. destruct (find_id a (p_resolvers p)) as [r|] eqn:FR; [destruct (ResCfg_model.instantiateResolver CA Cert (w_res w b) r); [|discriminate H]; injection H as <-; destruct I|].
    assert (FI : forall (A : Type) (l : list (string * A)) v, find_id a l = Some v -> In (a, v) l).
    { intros A l v Q. unfold find_id in Q. destruct (find (fun z => String.eqb (fst z) a) l) as [[i u]|] eqn:E; [|discriminate Q]. cbn in Q. injection Q as <-. apply find_some in E. destruct E as [E1 E2]. cbn in E2. apply String.eqb_eq in E2. subst i. exact E1. }
    destruct (find_id a (p_groups p)) as [g|] eqn:FG.
    + destruct (group_holds w a g m x y H I) as (n & M & Q). exists n. split; [exact (Uses_group p a n g (FI _ _ _ FG) M (NE n Q))|exact Q].
    + destruct (find_id a (p_routers p)) as [l|] eqn:FL; [|discriminate H]. destruct (router_holds w a l m x y H I) as (t & M & Q). exists (t_resolver t). split; [exact (Uses_route p a (t_resolver t) l t (FI _ _ _ FL) M eq_refl (NE _ Q))|exact Q].
  - rewrite (k_rest _ _ _ _ _ _ _ _ K a J) in G. unfold booting in G. destruct b as [c|]; cbn [get] in G; [|discriminate G]. destruct (String.eqb "bootstrap-resolver" a); [|discriminate G]. injection G as <-. destruct I.
Qed.
Lemma reach_uses a x y : get a m = Some x -> reaches x y -> exists n, get n m = Some y /\ clos_refl_trans _ (uses p) a n.
Proof.
  intros G R. apply clos_rt_rt1n in R. revert a G. induction R as [x|x y z I R IH]; intros a G; [exists a; split; [exact G|apply rt_refl]|].
  destruct (step_uses a x y G I) as (n & U & G'). destruct (IH n G') as (n' & G'' & P). exists n'. split; [exact G''|]. eapply rt_trans; [apply rt_step, U|exact P].
Qed.
Lemma closing : NoDup oc /\ forall id, In id oc <-> kept_on_disk p id.
Proof.
  destruct (find_names p (k_names _ _ _ _ _ _ _ _ K)) as (F1 & F2 & F3). rewrite (k_close _ _ _ _ _ _ _ _ K). split.
  - apply NoDup_filter. eapply Permutation_NoDup; [apply Permutation_sym, (k_perm _ _ _ _ _ _ _ _ K)|exact (k_names _ _ _ _ _ _ _ _ K)].
  - intros id. rewrite filter_In. unfold closes, kept_on_disk. split.
    + intros [_ H]. destruct (find_id id (p_resolvers p)); [discriminate H|]. destruct (find_id id (p_groups p)) as [g|] eqn:FG; [|discriminate H]. apply andb_prop in H. destruct H as [A B]. apply String.eqb_eq in A.
      destruct (CacheCfg_model.c_backend (g_caches g)) as [be|] eqn:E; [|discriminate B]. apply String.eqb_eq in B. exists g, be. split; [|auto].
      unfold find_id in FG. destruct (find (fun z => String.eqb (fst z) id) (p_groups p)) as [[i u]|] eqn:Q; [|discriminate FG]. cbn in FG. injection FG as <-. apply find_some in Q. destruct Q as [E1 E2]. cbn in E2. apply String.eqb_eq in E2. subst i. exact E1.
    + intros (g & be & I & A & B & C). split; [apply (Permutation_in _ (Permutation_sym (k_perm _ _ _ _ _ _ _ _ K))); unfold names; apply in_or_app; right; apply in_or_app; left; exact (in_map fst _ _ I)|].
      destruct (F2 id g I) as (-> & ->). rewrite A, B, C. reflexivity.
Qed.
End ONE.

(** *** Any order *)
Lemma inst_shuffled p p' b a m : shuffled p p' -> NoDup (names p) -> inst CA Cert Key w p b a m = inst CA Cert Key w p' b a m.
Proof.
  intros (_ & P1 & P2 & P3 & _) N. unfold names in N. pose proof (Config_proofs.nodup_app_l _ _ N) as N1. pose proof (Config_proofs.nodup_app_r _ _ N) as N23. pose proof (Config_proofs.nodup_app_l _ _ N23) as N2. pose proof (Config_proofs.nodup_app_r _ _ N23) as N3.
  unfold inst. rewrite (find_perm _ _ a N1 P1), (find_perm _ _ a N2 P2), (find_perm _ _ a N3 P3). reflexivity.
Qed.
Lemma shuffled_sym p p' : shuffled p p' -> shuffled p' p.
Proof. intros (A & B & C & D & E). unfold shuffled. symmetry in A. auto 10 using Permutation_sym. Qed.
Lemma acceptable_shuffled p p' rnd : shuffled p p' -> acceptable w p rnd -> acceptable w p' rnd.
Proof.
  intros (PB & P1 & P2 & P3 & P4) [N U AC ON AR AG AO AL].
  assert (PN : Permutation (names p) (names p')) by (unfold names; repeat apply Permutation_app; apply Permutation_map; assumption).
  assert (IN : forall n, In n (names p) <-> In n (names p')) by (intros n; split; apply Permutation_in; [exact PN|apply Permutation_sym, PN]).
  assert (US : forall a n, uses p' a n -> uses p a n).
  { intros a n [g I M NE|l t I J E NE]; [exact (Uses_group p a n g (Permutation_in _ (Permutation_sym P2) I) M NE)|exact (Uses_route p a n l t (Permutation_in _ (Permutation_sym P3) I) J E NE)]. }
  constructor.
  - eapply Permutation_NoDup; [exact PN|exact N].
  - intros a n H. apply IN. exact (U a n (US a n H)).
  - intros a W. apply (AC a). revert W. apply clos_mono. exact US.
  - intros id g I. apply (ON id g). exact (Permutation_in _ (Permutation_sym P2) I).
  - destruct AR as (b & B & R). exists b. split; [unfold booted in *; rewrite <- PB; exact B|]. intros id r I. apply (R id r). exact (Permutation_in _ (Permutation_sym P1) I).
  - intros id g I. specialize (AG id g (Permutation_in _ (Permutation_sym P2) I)). destruct AG as [(LN & L)|[M|C]].
    + left. split; [|exact L]. destruct LN as (n & E & J). exists n. split; [exact E|]. apply IN, J.
    + right. left. revert M. apply mods_move. intros n _ X. apply known_in. apply known_in in X. apply IN, X.
    + right. right. revert C. apply caches_move. intros n _ X. apply known_in. apply known_in in X. apply IN, X.
  - intros id l t I J. destruct (AO id l t (Permutation_in _ (Permutation_sym P3) I) J) as (R & X). split; [apply IN, R|exact X].
  - intros id l I. specialize (AL id l (Permutation_in _ (Permutation_sym P4) I)). unfold listener_ok in *. cbv zeta in *.
    assert (D : known (served_names p) (LCfg_model.l_resolver l) <> None <-> known (served_names p') (LCfg_model.l_resolver l) <> None).
    { rewrite !known_in. unfold served_names. rewrite PB, !in_app_iff, IN. reflexivity. }
    unfold LCfg_spec.acceptable, LCfg_spec.makeable, LCfg_spec.has_key, LCfg_spec.files, LCfg_spec.network in *. cbn [lworld LCfg_model.w_resolver LCfg_model.w_addr LCfg_model.w_pem LCfg_model.w_load LCfg_model.w_hex LCfg_model.w_pair] in *.
    rewrite <- D. exact AL.
Qed.
Lemma listener_local (T T' : string -> option node) id l rnd : T (LCfg_model.l_resolver l) = T' (LCfg_model.l_resolver l) ->
  LCfg_model.instantiateListener node CA Cert Key (lworld CA Cert Key w node T) id l rnd = LCfg_model.instantiateListener node CA Cert Key (lworld CA Cert Key w node T') id l rnd.
Proof. intros H. unfold LCfg_model.instantiateListener. cbn [lworld LCfg_model.w_resolver LCfg_model.w_addr]. rewrite H. reflexivity. Qed.
Lemma same_run p p' rnd m m' ls ls' oc oc' b b' built built' : ~ In "" (names p) -> shuffled p p' -> running w p rnd m ls oc b built -> running w p' rnd m' ls' oc' b' built' ->
  (forall n, get n m = get n m') /\ Permutation ls ls' /\ Permutation oc oc'.
Proof.
  intros HE S K K'. pose proof S as (PB & P1 & P2 & P3 & P4).
  assert (PN : Permutation (names p) (names p')) by (unfold names; repeat apply Permutation_app; apply Permutation_map; assumption).
  assert (BB : b' = b).
  { pose proof (k_boot _ _ _ _ _ _ _ _ K) as B1. pose proof (k_boot _ _ _ _ _ _ _ _ K') as B2. apply booted_iff in B1, B2. rewrite PB in B1. congruence. }
  subst b'. pose proof (k_names _ _ _ _ _ _ _ _ K) as N.
  assert (E : forall n, get n m = get n m').
  { intros n. destruct (in_dec string_dec n (names p)) as [I|I].
    - apply (unique CA Cert (inst CA Cert Key w p b) (shape p) (inst_local w p b N) m m' built); [| | | | |rewrite shape_ids; exact I].
      + rewrite (k_rest _ _ _ _ _ _ _ _ K "" HE), (k_rest _ _ _ _ _ _ _ _ K' ""); [reflexivity|]. intros J. exact (HE (Permutation_in _ (Permutation_sym PN) J)).
      + rewrite shape_ids. exact (k_perm _ _ _ _ _ _ _ _ K).
      + intros b1 a b2 Q r J. apply uses_refers in J. exact (k_order _ _ _ _ _ _ _ _ K b1 a b2 Q r J).
      + intros a J. rewrite shape_ids in J. exact (k_made _ _ _ _ _ _ _ _ K a J).
      + intros a J. rewrite shape_ids in J. destruct (k_made _ _ _ _ _ _ _ _ K' a (Permutation_in _ PN J)) as (o & G & H). exists o. split; [exact G|]. rewrite (inst_shuffled p p' b a m' S N). exact H.
    - rewrite (k_rest _ _ _ _ _ _ _ _ K n I), (k_rest _ _ _ _ _ _ _ _ K' n); [reflexivity|]. intros J. exact (I (Permutation_in _ (Permutation_sym PN) J)). }
  split; [exact E|]. split.
  - eapply (perm_forall2 (fun x q => LCfg_spec.started (lworld CA Cert Key w node (fun n => get n m)) (fst x) (snd x) (rnd (fst x)) q)); [|exact P4|exact (k_listeners _ _ _ _ _ _ _ _ K)|].
    + unfold LCfg_spec.started. intros a x y _. congruence.
    + pose proof (k_listeners _ _ _ _ _ _ _ _ K') as F. clear - F E. induction F as [|x q l k A F IH]; constructor; [|exact IH]. unfold LCfg_spec.started in *. rewrite (listener_local (fun n => get n m) (fun n => get n m') _ _ _ (E _)). exact A.
  - destruct (closing p rnd m ls oc b built K) as (N1 & C1). destruct (closing p' rnd m' ls' oc' b built' K') as (N2 & C2). apply NoDup_Permutation; [exact N1|exact N2|]. intros id. rewrite C1, C2. unfold kept_on_disk.
    split; intros (g & be & I & R); exists g, be; (split; [|exact R]); [exact (Permutation_in _ P2 I)|exact (Permutation_in _ (Permutation_sym P2) I)].
Qed.
End RUN.

(** *** Command line *)
Section CMD.
Context {CA Cert Key : Type}.
Variable w : world CA Cert Key.
Lemma load_texts l t : load CA Cert Key w l = Some t <-> texts w l t.
Proof.
  revert t. induction l as [|f l IH]; intros t; cbn [load].
  - split; [intros H; injection H as <-; constructor|intros H; inversion H; reflexivity].
  - split.
    + destruct (w_open w f) as [s|] eqn:O; [|discriminate]. destruct (load CA Cert Key w l) as [u|]; [|discriminate]. intros H. injection H as <-. constructor; [exact O|apply IH; reflexivity].
    + intros H. inversion H as [|? ? s u O X]; subst. apply IH in X. rewrite O, X. reflexivity.
Qed.
Lemma start_spec ll v args :
  (forall p, start CA Cert Key w ll v args = Runs p <-> (ll <= 6)%N /\ v = false /\ args <> [] /\ exists t, texts w args t /\ w_toml w t = Some p) /\
  (start CA Cert Key w ll v args = Version <-> (ll <= 6)%N /\ v = true) /\ (forall a u k, start CA Cert Key w ll v args <> RunsFDServer a u k).
Proof.
  unfold start, slogLevel. destruct (N.leb_spec ll 6) as [L|L]; cbn [negb].
  2: { split; [|split]; [intros p; split; [discriminate|lia]|split; [discriminate|lia]|discriminate]. }
  destruct v.
  { split; [|split]; [intros p; split; [discriminate|intros (_ & Q & _); discriminate Q]|split; [auto|reflexivity]|discriminate]. }
  destruct args as [|a args]; [split; [|split]; [intros p; split; [discriminate|intros (_ & _ & Q & _); congruence]|split; [discriminate|intros (_ & Q); discriminate Q]|discriminate]|].
  destruct (load CA Cert Key w (a :: args)) as [t|] eqn:E.
  - pose proof (proj1 (load_texts _ _) E) as X. destruct (w_toml w t) as [p0|] eqn:M; (split; [|split]; [intros p|split; [discriminate|intros (_ & Q); discriminate Q]|discriminate]).
    + split; [intros H; injection H as <-; split; [exact L|]; split; [reflexivity|]; split; [discriminate|]; eauto|]. intros (_ & _ & _ & t' & X' & M'). apply load_texts in X'. congruence.
    + split; [discriminate|]. intros (_ & _ & _ & t' & X' & M'). apply load_texts in X'. congruence.
  - split; [|split]; [intros p; split; [discriminate|intros (_ & _ & _ & t' & X' & _); apply load_texts in X'; congruence]|split; [discriminate|intros (_ & Q); discriminate Q]|discriminate].
Qed.
End CMD.

Lemma octal_digit d : (d < 8)%N -> N_of_ascii (ascii_of_N (48 + d)) = (48 + d)%N.
Proof. intros L. apply N_ascii_embedding. lia. Qed.
Lemma octal_app s : forall acc d, (d < 8)%N -> octal acc (s ++ String (ascii_of_N (48 + d)) "") = match octal acc s with Some n => if (n * 8 + d <=? 4294967295)%N then Some (n * 8 + d)%N else None | None => None end.
Proof.
  induction s as [|c s IH]; intros acc d L; cbn [String.append octal].
  - rewrite (octal_digit d L). cbv zeta. replace (48 <=? 48 + d)%N with true by (symmetry; apply N.leb_le; lia). replace (48 + d <=? 55)%N with true by (symmetry; apply N.leb_le; lia). cbn [andb]. replace (48 + d - 48)%N with d by lia. destruct (_ <=? _)%N; reflexivity.
  - cbv zeta. destruct (_ && _)%bool; [|reflexivity]. destruct (_ <=? _)%N; [apply IH; exact L|reflexivity].
Qed.
Lemma octal_empty s : octal_text s 0 -> s <> "".
Proof. intros H. inversion H; [discriminate|]. destruct s0; discriminate. Qed.
Lemma octal_ne s n : octal_text s n -> s <> "".
Proof. intros H. inversion H; [discriminate|]. destruct s0; discriminate. Qed.
Lemma octal_sound s n : (n <= 4294967295)%N -> octal_text s n -> octal 0 s = Some n.
Proof.
  intros L H. induction H as [d D|s n d D H IH].
  - pose proof (octal_app "" 0 d D) as E. cbn [String.append] in E. rewrite E. cbn [octal]. replace (0 * 8 + d)%N with d by lia. replace (d <=? 4294967295)%N with true by (symmetry; apply N.leb_le; exact L). reflexivity.
  - rewrite octal_app by exact D. rewrite IH by lia. replace (n * 8 + d)%N with (8 * n + d)%N by lia. replace (8 * n + d <=? 4294967295)%N with true by (symmetry; apply N.leb_le; exact L). reflexivity.
Qed.
Lemma last_char s : s <> "" -> exists t c, s = t ++ String c "".
Proof. induction s as [|c s IH]; [congruence|]. intros _. destruct s as [|c' s]; [exists "", c; reflexivity|]. destruct IH as (t & d & E); [discriminate|]. exists (String c t), d. cbn. rewrite E. reflexivity. Qed.
Lemma octal_complete : forall k s n, (String.length s <= k)%nat -> s <> "" -> octal 0 s = Some n -> octal_text s n.
Proof.
  induction k as [|k IH]; intros s n L NE H; [destruct s; [congruence|cbn in L; lia]|].
  destruct (last_char s NE) as (t & c & ->).
  assert (D : exists d, (d < 8)%N /\ c = ascii_of_N (48 + d)).
  { clear - H. assert (X : forall t acc, octal acc (t ++ String c "") <> None -> (48 <= N_of_ascii c <= 55)%N).
    { clear. induction t as [|x t IH]; intros acc; cbn [String.append octal]; cbv zeta.
      - destruct (N.leb_spec 48 (N_of_ascii c)); destruct (N.leb_spec (N_of_ascii c) 55); cbn [andb]; try congruence. intros _. split; assumption.
      - destruct (_ && _)%bool; [|congruence]. destruct (_ <=? _)%N; [apply IH|congruence]. }
    assert (Y : octal 0 (t ++ String c "") <> None) by congruence. apply X in Y. exists (N_of_ascii c - 48)%N. split; [lia|]. replace (48 + (N_of_ascii c - 48))%N with (N_of_ascii c) by lia. symmetry. apply ascii_N_embedding. }
  destruct D as (d & D & ->). rewrite octal_app in H by exact D. destruct (octal 0 t) as [n0|] eqn:E; [|discriminate H]. destruct (N.leb_spec (n0 * 8 + d) 4294967295) as [LE|LE]; [|discriminate H]. injection H as <-.
  destruct t as [|x t].
  - cbn in E. injection E as <-. replace (0 * 8 + d)%N with d by lia. exact (Octal_one d D).
  - replace (n0 * 8 + d)%N with (8 * n0 + d)%N by lia. apply Octal_more; [exact D|]. apply IH; [|discriminate|exact E].
    assert (X : forall c u, String.length (u ++ String c "") = S (String.length u)) by (clear; intros c; induction u as [|y u IHu]; cbn; [reflexivity|]; rewrite IHu; reflexivity). rewrite X in L. lia.
Qed.
Lemma mode_spec ll mode u path m : runFDServer ll mode u path = RunsFDServer path u m <-> (ll <= 6)%N /\ ((mode = "" /\ m = 0%N) \/ (octal_text mode m /\ (m <= 511)%N)).
Proof.
  unfold runFDServer, slogLevel. destruct (N.leb_spec ll 6) as [L|L]; cbn [negb]; [|split; [discriminate|lia]]. destruct (String.eqb_spec mode "") as [->|NE].
  - split; [intros H; injection H as <-; auto|]. intros (_ & [(_ & ->)|(H & _)]); [reflexivity|]. exfalso. exact (octal_ne _ _ H eq_refl).
  - assert (PU : parseUint8 mode = octal 0 mode) by (destruct mode; [congruence|reflexivity]). rewrite PU. destruct (octal 0 mode) as [k|] eqn:E.
    + apply (octal_complete (String.length mode)) in E as O; [|lia|exact NE]. destruct (N.ltb_spec 511 k) as [G|G].
      * split; [discriminate|]. intros (_ & [(Q & _)|(H & Lm)]); [contradiction|]. apply octal_sound in H; [|lia]. rewrite E in H. injection H as ->. lia.
      * split; [intros H; injection H as <-; auto|]. intros (_ & [(Q & _)|(H & Lm)]); [contradiction|]. apply octal_sound in H; [|lia]. congruence.
    + split; [discriminate|]. intros (_ & [(Q & _)|(H & Lm)]); [contradiction|]. apply octal_sound in H; [|lia]. congruence.
Qed.
