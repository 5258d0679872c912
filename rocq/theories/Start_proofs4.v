(** The whole start *)
From Verif Require Import Base Bytes Dns Net Cidr_spec Net_spec Router_spec.
From Verif Require ListCfg_model ListCfg_spec ModCfg_model ModCfg_spec CacheCfg_model CacheCfg_spec ResCfg_model ResCfg_spec LCfg_model LCfg_spec Router_model.
From Verif Require Config_spec Config_proofs.
From Verif Require Import Config_model Start_model Start_spec Start_proofs Start_proofs2 Start_proofs3.
From Coq Require Import Relations.
Import Config_spec.
Local Open Scope string_scope.

(** *** The graph *)
Definition shape (p : program) : config :=
  Config None (map fst (p_resolvers p)) (map (fun g => (fst g, (resolvers_of (snd g), aux_of (snd g)))) (p_groups p)) (map (fun r => (fst r, map t_resolver (snd r))) (p_routers p)) [].
Lemma shape_nodes p : nodes (shape p) = vertices p.
Proof. unfold nodes, vertices, shape. cbn. rewrite !map_map. reflexivity. Qed.
Lemma shape_ids p : ids (shape p) = names p.
Proof. unfold ids, names. rewrite shape_nodes. unfold vertices. rewrite !map_app, !map_map. reflexivity. Qed.
Lemma in_vertices p a v : In (a, v) (vertices p) <->
  (exists r, In (a, r) (p_resolvers p) /\ v = VResolver) \/ (exists g, In (a, g) (p_groups p) /\ v = VGroup (resolvers_of g) (aux_of g)) \/
  (exists l, In (a, l) (p_routers p) /\ v = VRouter (map t_resolver l)).
Proof.
  unfold vertices. rewrite !in_app_iff, !in_map_iff. split.
  - intros [((x & r) & E & I)|[((x & g) & E & I)|((x & l) & E & I)]]; injection E as <- <-; cbn; eauto 6.
  - intros [(r & I & ->)|[(g & I & ->)|(l & I & ->)]]; [left; exists (a, r)|right; left; exists (a, g)|right; right; exists (a, l)]; auto.
Qed.
Lemma in_aux g n : In n (resolvers_of g ++ aux_of g)%list <-> mentions g n.
Proof. rewrite in_app_iff. unfold mentions, aux_of. cbn [In]. split; intros [H|H]; auto; right; intuition congruence. Qed.
Lemma uses_refers p a n : uses p a n <-> refers (shape p) a n.
Proof.
  unfold refers. rewrite shape_nodes. split.
  - intros [g I M N|l t I J E N].
    + exists (VGroup (resolvers_of g) (aux_of g)). split; [apply in_vertices; right; left; eauto|]. split; [apply in_aux, M|exact N].
    + exists (VRouter (map t_resolver l)). split; [apply in_vertices; right; right; eauto|]. split; [apply in_map_iff; eauto|exact N].
  - intros (v & I & J & N). apply in_vertices in I. destruct I as [(r & I & ->)|[(g & I & ->)|(l & I & ->)]].
    + destruct J.
    + apply in_aux in J. exact (Uses_group p a n g I J N).
    + apply in_map_iff in J. destruct J as (t & E & J). exact (Uses_route p a n l t I J E N).
Qed.
Lemma clos_mono {A} (R R' : A -> A -> Prop) a b : (forall x y, R x y -> R' x y) -> clos_trans _ R a b -> clos_trans _ R' a b.
Proof. intros H W. induction W as [x y S|x y z W1 I1 W2 I2]; [apply t_step, H, S|eapply t_trans; eassumption]. Qed.
Lemma once_aux g : once g <-> NoDup (filter (fun x => negb (String.eqb x "")) (resolvers_of g ++ aux_of g)).
Proof. reflexivity. Qed.
Lemma find_in {A} (l : list (string * A)) id x : NoDup (map fst l) -> In (id, x) l -> find_id id l = Some x.
Proof.
  intros N I. unfold find_id. destruct (find (fun y => String.eqb (fst y) id) l) as [[i y]|] eqn:E.
  - apply find_some in E. destruct E as [J E]. cbn in E. apply String.eqb_eq in E. subst i. cbn. rewrite (Config_proofs.nodup_fst l id x y N I J). reflexivity.
  - exfalso. pose proof (find_none _ _ E _ I) as Q. cbn in Q. rewrite String.eqb_refl in Q. discriminate Q.
Qed.
Lemma find_out {A} (l : list (string * A)) id : ~ In id (map fst l) -> find_id id l = None.
Proof.
  intros N. unfold find_id. destruct (find (fun y => String.eqb (fst y) id) l) as [[i y]|] eqn:E; [|reflexivity].
  exfalso. apply find_some in E. destruct E as [J E]. cbn in E. apply String.eqb_eq in E. subst i. apply N. exact (in_map fst _ _ J).
Qed.
Lemma find_names p : NoDup (names p) ->
  (forall id r, In (id, r) (p_resolvers p) -> find_id id (p_resolvers p) = Some r) /\
  (forall id g, In (id, g) (p_groups p) -> find_id id (p_resolvers p) = None /\ find_id id (p_groups p) = Some g) /\
  (forall id l, In (id, l) (p_routers p) -> find_id id (p_resolvers p) = None /\ find_id id (p_groups p) = None /\ find_id id (p_routers p) = Some l).
Proof.
  unfold names. intros N. pose proof (Config_proofs.nodup_app_l _ _ N) as N1. pose proof (Config_proofs.nodup_app_r _ _ N) as N23. pose proof (Config_proofs.nodup_app_l _ _ N23) as N2. pose proof (Config_proofs.nodup_app_r _ _ N23) as N3.
  split; [|split].
  - intros id r I. apply find_in; assumption.
  - intros id g I. assert (J : In id (map fst (p_groups p))) by exact (in_map fst _ _ I). split; [|apply find_in; assumption]. apply find_out. intros K. apply (Config_proofs.nodup_app_not _ _ _ N K). apply in_or_app. auto.
  - intros id l I. assert (J : In id (map fst (p_routers p))) by exact (in_map fst _ _ I). split; [|split; [|apply find_in; assumption]]; apply find_out; intros K.
    + apply (Config_proofs.nodup_app_not _ _ _ N K). apply in_or_app. auto.
    + exact (Config_proofs.nodup_app_not _ _ _ N23 K J).
Qed.

Section S.
Context {CA Cert Key : Type}.
Variable w : world CA Cert Key.
Hypothesis PO : parse_ok (w_addr w).
Variable p : program.
Hypothesis HE : ~ In "" (names p).
Notation node := (node CA Cert).
Notation inst := (inst CA Cert Key w p).

Lemma inst_local b : NoDup (names p) -> forall a v m m', In (a, v) (nodes (shape p)) -> (forall r, In r (refs v) -> get r m = get r m') -> inst b a m = inst b a m'.
Proof.
  intros N a v m m' I H. destruct (find_names p N) as (F1 & F2 & F3). rewrite shape_nodes in I. apply in_vertices in I. unfold Start_model.inst. destruct I as [(r & I & ->)|[(g & I & ->)|(l & I & ->)]].
  - rewrite (F1 a r I). reflexivity.
  - destruct (F2 a g I) as (-> & ->). apply group_local. intros n M. apply H, in_aux, M.
  - destruct (F3 a l I) as (-> & -> & ->). apply router_local. intros t J. apply H. cbn. apply in_map, J.
Qed.
(** The settings of a name are all right *)
Definition fine (b : option (ResCfg_model.client CA Cert)) (a : string) : Prop :=
  (forall r, In (a, r) (p_resolvers p) -> ResCfg_spec.made (w_res w b) r <> None) /\ (forall g, In (a, g) (p_groups p) -> group_ok w p a g) /\
  (forall l t, In (a, l) (p_routers p) -> In t l -> route_ok w p t).
Lemma inst_fine b a m : NoDup (names p) -> (forall x n, uses p x n -> In n (names p)) -> In a (names p) -> get "" m = None -> (forall n, uses p a n -> get n m <> None) ->
  (inst b a m <> None <-> fine b a).
Proof.
  intros N U I Z D. destruct (find_names p N) as (F1 & F2 & F3). unfold Start_model.inst, fine.
  assert (X : forall (A : Type) (l : list (string * A)), In a (map fst l) -> exists x, In (a, x) l) by (intros A l J; apply in_map_iff in J; destruct J as ((y & x) & E & J); cbn in E; subst y; eauto).
  assert (NE : a <> "") by congruence.
  unfold names in I. apply in_app_or in I. destruct I as [I|I]; [|apply in_app_or in I; destruct I as [I|I]]; apply X in I; destruct I as (x & I).
  - rewrite (F1 a x I). rewrite map_none. unfold ResCfg_spec.made. split.
    + intros H. split; [intros r J|split]; [|intros g J; destruct (F2 a g J) as (K & _)|intros l t J; destruct (F3 a l J) as (K & _)]; [|rewrite (F1 a x I) in K; discriminate K|rewrite (F1 a x I) in K; discriminate K].
      assert (r = x) by (pose proof (F1 a r J); pose proof (F1 a x I); congruence). subst r. exact H.
    + intros (H & _). exact (H x I).
  - destruct (F2 a x I) as (K1 & K2). rewrite K1, K2. rewrite (group_accepted w PO p m a x).
    + split.
      * intros H. split; [intros r J; rewrite (F1 a r J) in K1; discriminate K1|]. split; [intros g J; destruct (F2 a g J) as (_ & K); assert (g = x) by congruence; subst g; exact H|].
        intros l t J. destruct (F3 a l J) as (_ & K & _). congruence.
      * intros (_ & H & _). exact (H x I).
    + intros n M. destruct (string_dec n "") as [->|NN]; [rewrite Z; split; [congruence|intros Q; contradiction]|]. pose proof (Uses_group p a n x I M NN) as V. split; intros _; [exact (U _ _ V)|exact (D _ V)].
  - destruct (F3 a x I) as (K1 & K2 & K3). rewrite K1, K2, K3. rewrite (router_accepted w PO p m a x).
    + split.
      * intros H. split; [intros r J; rewrite (F1 a r J) in K1; discriminate K1|]. split; [intros g J; destruct (F2 a g J) as (_ & K); congruence|].
        intros l t J. destruct (F3 a l J) as (_ & _ & K). assert (l = x) by congruence. subst l. exact (H t).
      * intros (_ & _ & H) t. exact (H x t I).
    + intros t J. destruct (string_dec (t_resolver t) "") as [Q|NN]; [rewrite Q, Z; split; [congruence|intros R; contradiction]|]. pose proof (Uses_route p a (t_resolver t) x t I J eq_refl NN) as V. split; intros _; [exact (U _ _ V)|exact (D _ V)].
Qed.

Definition booting (b : option (ResCfg_model.client CA Cert)) : table node := match b with Some c => [("bootstrap-resolver"%string, NResolver _ _ "bootstrap-resolver" c)] | None => [] end.
Lemma booted_iff b : (if String.eqb (ResCfg_model.r_address (p_boot p)) "" then Some None else option_map Some (ResCfg_model.instantiateResolver CA Cert (w_res w None) (p_boot p))) = Some b <-> booted w p b.
Proof.
  unfold booted, ResCfg_spec.made. destruct (String.eqb_spec (ResCfg_model.r_address (p_boot p)) "") as [E|E].
  - split; [intros H; injection H as <-; left; auto|]. intros [(_ & ->)|(N & _)]; [reflexivity|contradiction].
  - destruct (ResCfg_model.instantiateResolver CA Cert (w_res w None) (p_boot p)) as [c|]; cbn.
    + split; [intros H; injection H as <-; right; eauto|]. intros [(N & _)|(_ & c' & H & ->)]; [contradiction|congruence].
    + split; [discriminate|]. intros [(N & _)|(_ & c' & H & _)]; [contradiction|discriminate H].
Qed.
Lemma booting_get b r : booted w p b -> (get r (booting b) <> None <-> In r (if String.eqb (ResCfg_model.r_address (p_boot p)) "" then [] else ["bootstrap-resolver"])).
Proof.
  unfold booted, booting. intros [(E & ->)|(E & c & _ & ->)].
  - rewrite E. cbn. split; [congruence|intros []].
  - apply String.eqb_neq in E. rewrite E. cbn [get In]. destruct (String.eqb_spec "bootstrap-resolver" r) as [<-|D]; split; try congruence; [intros _; left; reflexivity|intros [H|[]]; congruence].
Qed.

Variable ord : nat -> list string -> list string.
Variable es : list edge.
Variable rnd : string -> option bytes.
Hypothesis HO : any_order ord.
Hypothesis HP : edges p es.

(** What is known of a program that runs *)
Record running (m : table node) (ls : list (pending CA Cert Key)) (oc : list string) (b : option (ResCfg_model.client CA Cert)) (built : list string) : Prop := {
  k_boot : booted w p b; k_names : NoDup (names p); k_uses : forall a n, uses p a n -> In n (names p);
  k_perm : Permutation built (names p); k_order : forall b1 a b2, built = (b1 ++ a :: b2)%list -> forall r, uses p a r -> In r b1;
  k_made : forall a, In a (names p) -> exists o, get a m = Some o /\ inst b a m = Some o;
  k_rest : forall r, ~ In r (names p) -> get r m = get r (booting b);
  k_listeners : Forall2 (fun x q => LCfg_spec.started (lworld CA Cert Key w node (fun n => get n m)) (fst x) (snd x) (rnd (fst x)) q) (p_listeners p) ls;
  k_close : oc = filter (closes p) built }.
Lemma served_get m b : booted w p b -> (forall a, In a (names p) -> exists o, get a m = Some o) -> (forall r, ~ In r (names p) -> get r m = get r (booting b)) ->
  forall r, get r m <> None <-> In r (served_names p).
Proof.
  intros B A C r. unfold served_names. rewrite in_app_iff. destruct (in_dec string_dec r (names p)) as [I|I].
  - destruct (A r I) as (o & E). split; [auto|congruence].
  - rewrite (C r I), (booting_get b r B). tauto.
Qed.
Lemma begin_spec : match begin CA Cert Key w ord rnd p es with
  | Error _ _ _ => ~ acceptable w p rnd
  | Hangs _ _ _ => False
  | Started _ _ _ m ls oc => acceptable w p rnd /\ exists b built, running m ls oc b built
  end.
Proof.
  unfold begin.
  assert (HP' : Permutation es (flat_map edges_of (nodes (shape p)))) by (rewrite shape_nodes; exact HP).
  destruct (if String.eqb (ResCfg_model.r_address (p_boot p)) "" then Some None else option_map Some (ResCfg_model.instantiateResolver CA Cert (w_res w None) (p_boot p))) as [b|] eqn:B.
  2: { intros [_ _ _ _ (b & BB & _) _ _ _]. apply booted_iff in BB. congruence. }
  apply booted_iff in B.
  assert (UB : forall b', booted w p b' -> b' = b) by (intros b' B'; apply booted_iff in B, B'; congruence).
  destruct (addVertices (vertices p) []) as [V|] eqn:AV.
  2: { intros [N _ _ _ _ _ _ _]. pose proof (Config_proofs.addV_complete (vertices p) []) as C. cbn [app] in C. rewrite AV in C. rewrite <- shape_nodes in C. fold (ids (shape p)) in C. rewrite shape_ids in C. specialize (C N). discriminate C. }
  destruct (addEdges V es []) as [E|] eqn:AE.
  2: { intros [N U AC ON _ _ _ _]. assert (AV' : V = names p) by (apply Config_proofs.addV_sound in AV; [|constructor]; destruct AV as [-> _]; cbn [app]; rewrite <- shape_nodes; exact (shape_ids p)). subst V.
    revert AE. apply Config_proofs.addE_complete; rewrite ?app_nil_r.
    - intros a W. apply (AC a). apply (Config_proofs.way_refers (shape p) (filter Config_proofs.nonempty es)) in W; [|intros x y; apply Config_proofs.in_edges, HP']. revert W. apply clos_mono. intros x y. apply uses_refers.
    - eapply Permutation_NoDup; [apply Config_proofs.perm_filter, Permutation_sym, HP'|]. apply Config_proofs.once_complete; [fold (ids (shape p)); rewrite shape_ids; exact N|].
      intros g main aux J. rewrite shape_nodes in J. apply in_vertices in J. destruct J as [(r & _ & Q)|[(x & J & Q)|(l & _ & Q)]]; [discriminate Q| |discriminate Q]. injection Q as -> ->. exact (ON g x J).
    - apply Forall_forall. intros [a n] J. apply (Config_proofs.in_edges (shape p) es a n HP') in J. split; cbn; [destruct J as (v & J & _); rewrite <- shape_ids; apply (in_map fst) in J; exact J|exact (U a n (proj2 (uses_refers p a n) J))]. }
  rewrite <- shape_nodes in AV.
  destruct (Config_proofs.graph_sound (shape p) es HP' V E AV AE) as (-> & N & [K1 K2 K3] & NE).
  assert (N' : NoDup (names p)) by (rewrite <- shape_ids; exact N).
  assert (U : forall a n, uses p a n -> In n (names p)) by (intros a n J; apply uses_refers, K1 in J; rewrite Forall_forall in K2; rewrite <- shape_ids; exact (proj2 (K2 _ J))).
  assert (Z : get "" (booting b) = None) by (unfold booting; destruct b; reflexivity).
  assert (HE' : ~ In "" (ids (shape p))) by (rewrite shape_ids; exact HE).
  pose proof (loop_spec CA Cert (inst b) (shape p) E (booting b) N HE' K1 K2 K3 Z (inst_local b N') ord HO) as L. fold (booting b).
  destruct (rounds CA Cert (inst b) ord (length (ids (shape p))) (ids (shape p)) E (booting b) []) as [[[m built]|]|]; [| |exact L].
  - destruct L as (P & M & R & O). rewrite shape_ids in P.
    assert (M' : forall a, In a (names p) -> exists o, get a m = Some o /\ inst b a m = Some o) by (intros a I; apply M; rewrite shape_ids; exact I).
    assert (R' : forall r, ~ In r (names p) -> get r m = get r (booting b)) by (intros r I; apply R; rewrite shape_ids; exact I).
    assert (S : forall r, get r m <> None <-> In r (served_names p)) by (apply (served_get m b B); [intros a I; destruct (M' a I) as (o & Q & _); eauto|exact R']).
    pose proof (listeners_spec w rnd m (p_listeners p)) as LS. destruct (listeners CA Cert Key w rnd m (p_listeners p)) as [ls|].
    + assert (F : forall a, In a (names p) -> fine b a).
      { intros a I. destruct (M' a I) as (o & G & Q). apply (inst_fine b a m N' U I); [rewrite R' by exact HE; exact Z|intros n J; destruct (M' n (U _ _ J)) as (x & X & _); congruence|congruence]. }
      split.
      * constructor; try assumption.
        -- intros a W. apply (K3 a). apply (Config_proofs.way_refers (shape p) E); [exact K1|]. revert W. apply clos_mono. intros x y. apply uses_refers.
        -- intros id g J. apply once_aux. apply (Config_proofs.once_sound (nodes (shape p)) id); [eapply Permutation_NoDup; [apply Config_proofs.perm_filter, HP'|exact NE]|]. rewrite shape_nodes. apply in_vertices. right. left. eauto.
        -- exists b. split; [exact B|]. intros id r J. apply (F id); [|exact J]. unfold names. apply in_or_app. left. exact (in_map fst _ _ J).
        -- intros id g J. apply (F id); [|exact J]. unfold names. apply in_or_app. right. apply in_or_app. left. exact (in_map fst _ _ J).
        -- intros id l t J I. refine (proj2 (proj2 (F id _)) l t J I). unfold names. apply in_or_app. right. apply in_or_app. right. exact (in_map fst _ _ J).
        -- intros id l J. apply (listener_accepted w PO p m id l (rnd id) (S _)). clear - LS J. induction LS as [|[i x] q l0 l1 A FF IH]; [destruct J|]. destruct J as [J|J]; [injection J as -> ->; cbn in A; unfold LCfg_spec.started in A; congruence|exact (IH J)].
      * exists b, built. constructor; try assumption; [intros b1 a b2 Q r J; apply uses_refers in J; exact (O b1 a b2 Q r J)|reflexivity].
    + destruct LS as (id & s & J & Q). intros [_ _ _ _ _ _ _ AL]. apply (listener_accepted w PO p m id s (rnd id) (S _)) in Q; [exact Q|]. exact (AL id s J).
  - intros [_ _ _ _ (b' & B' & AR) AG AO _]. apply UB in B'. subst b'. destruct L as (a & m & I & D & G & Q). rewrite shape_ids in I.
    revert Q. apply (inst_fine b a m N' U I G); [intros n J; apply D, uses_refers, J|]. split; [|split].
    + intros r J. exact (AR a r J).
    + intros g J. exact (AG a g J).
    + intros l t J. exact (AO a l t J).
Qed.
End S.
