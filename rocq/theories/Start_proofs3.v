(** Routers and listeners: when they can be made *)
From Verif Require Import Base Bytes Dns Net Cidr_spec Net_spec Router_spec.
From Verif Require ListCfg_model ListCfg_spec ModCfg_model ModCfg_spec CacheCfg_model CacheCfg_spec ResCfg_model ResCfg_spec LCfg_model LCfg_spec LCfg_proofs Router_model Router_proofs.
From Verif Require Import Config_model Start_model Start_spec Start_proofs2.
Local Open Scope string_scope.

Lemma all_some_iff {A B} (f : A -> option B) l : Router_model.all_some f l <> None <-> forall x, In x l -> f x <> None.
Proof.
  rewrite some_none, LCfg_proofs.all_some_total, Forall_forall. split; intros H x I; specialize (H x I); apply some_none; exact H.
Qed.
Lemma time_some s : Router_model.parseTimeOfDay s <> None <-> time_ok s.
Proof.
  unfold time_ok. destruct (string_dec s "") as [->|D].
  - split; [auto|]. intros _ H. pose proof (proj2 (Router_proofs.parse_time_nil "") eq_refl). congruence.
  - split.
    + intros H. destruct (Router_model.parseTimeOfDay s) as [[[h m]|]|] eqn:E; [|exfalso; apply D, Router_proofs.parse_time_nil, E|congruence]. right. exists h, m. apply Router_proofs.parse_time; assumption.
    + intros [E|(h & m & X)]; [contradiction|]. apply Router_proofs.parse_time in X; [|exact D]. congruence.
Qed.
Lemma class_some s : Router_model.stringToClass s <> None <-> s = "" \/ exists c, class_text s c.
Proof.
  destruct (Router_model.stringToClass s) as [c|] eqn:E.
  - split; [intros _|discriminate]. destruct (Router_proofs.class_spec s c E) as [A B]. destruct (N.eq_dec c 0) as [Z|Z]; [left; tauto|]. right. exists c. apply B; [exact Z|reflexivity].
  - split; [congruence|]. intros H. exfalso. revert E. unfold Router_model.stringToClass. cbv zeta.
    pose proof (Router_proofs.upper_eq s "IN" eq_refl) as U1. pose proof (Router_proofs.upper_eq s "INET" eq_refl) as U2. pose proof (Router_proofs.upper_eq s "CH" eq_refl) as U3.
    pose proof (Router_proofs.upper_eq s "HS" eq_refl) as U4. pose proof (Router_proofs.upper_eq s "NONE" eq_refl) as U5. pose proof (Router_proofs.upper_eq s "ANY" eq_refl) as U6.
    cbn in U1, U2, U3, U4, U5, U6. destruct H as [->|(c & [H|[H|[H|[H|[H|[H|[]]]]]]])]; [discriminate|..]; apply (f_equal fst) in H; cbn [fst] in H; symmetry in H.
    + rewrite (proj2 U1 H). discriminate.
    + rewrite (proj2 U2 H). discriminate.
    + rewrite (proj2 U3 H). discriminate.
    + rewrite (proj2 U4 H). discriminate.
    + rewrite (proj2 U5 H). discriminate.
    + rewrite (proj2 U6 H). discriminate.
Qed.
Lemma weekdays_some l : Router_model.stringsToWeekdays l <> None <-> forall d, In d l -> exists n, day_text d n.
Proof.
  unfold Router_model.stringsToWeekdays. rewrite all_some_iff. split; intros H d I; specialize (H d I).
  - apply some_none in H. destruct H as (n & H). exists n. apply Router_proofs.weekday_spec, H.
  - destruct H as (n & H). apply Router_proofs.weekday_spec in H. congruence.
Qed.

Section S.
Context {CA Cert Key : Type}.
Variable w : world CA Cert Key.
Hypothesis PO : parse_ok (w_addr w).
Notation node := (node CA Cert).

Lemma net_some s : Router_model.parse_net_opt (w_addr w) s <> None <-> net_ok w s.
Proof.
  unfold Router_model.parse_net_opt, net_ok. destruct (String.eqb_spec s "") as [->|D]; [split; [auto|discriminate]|].
  rewrite map_none, some_none, (LCfg_proofs.net_total _ PO). split; [auto|]. intros [H|H]; [contradiction|exact H].
Qed.
Lemma route_new c : Router_model.newRoute (w_match w) (w_addr w) (w_type w) c <> None <->
  Router_model.stringToType (w_type w) (Router_model.rc_types c) <> None /\ Router_model.stringsToWeekdays (Router_model.rc_weekdays c) <> None /\
  Router_model.parseTimeOfDay (Router_model.rc_before c) <> None /\ Router_model.parseTimeOfDay (Router_model.rc_after c) <> None /\ Router_model.stringToClass (Router_model.rc_class c) <> None /\
  w_match w (Router_model.rc_name c) <> None /\ w_match w (Router_model.rc_dohpath c) <> None /\ w_match w (Router_model.rc_listener c) <> None /\ w_match w (Router_model.rc_tls c) <> None /\
  Router_model.parse_net_opt (w_addr w) (Router_model.rc_source c) <> None /\ Router_model.parse_net_opt (w_addr w) (Router_model.rc_ecs c) <> None.
Proof.
  unfold Router_model.newRoute.
  repeat match goal with |- context [match ?x with Some _ => _ | None => _ end] => destruct x; [|split; [congruence|intros H; exfalso; tauto]] end.
  split; [intros _; repeat split; discriminate|discriminate].
Qed.
Lemma entries_in l : forall i e, In e (entries i l) -> exists t j, In t l /\ e = entry j t.
Proof. induction l as [|t l IH]; intros i e H; [destruct H|]. destruct H as [<-|H]; [exists t, i; split; [left; reflexivity|reflexivity]|]. destruct (IH _ _ H) as (t' & j & I & E). exists t', j. split; [right; exact I|exact E]. Qed.
Lemma entries_has l : forall i t, In t l -> exists j, In (entry j t) (entries i l).
Proof. induction l as [|x l IH]; intros i t H; [destruct H|]. destruct H as [->|I]; [exists i; left; reflexivity|]. destruct (IH (S i) t I) as (j & J). exists j. right. exact J. Qed.
Lemma entries_nth l : forall i k t, nth_error l k = Some t -> nth_error (entries i l) k = Some (entry (i + k) t).
Proof. induction l as [|x l IH]; intros i [|k] t H; try discriminate H; cbn in *; [injection H as ->; rewrite Nat.add_0_r; reflexivity|]. rewrite (IH (S i) k t H). f_equal. f_equal. lia. Qed.
Lemma entries_length l : forall i, length (entries i l) = length l.
Proof. induction l as [|x l IH]; intros i; cbn; [reflexivity|]. rewrite IH. reflexivity. Qed.

Lemma router_accepted p m id l : (forall t, In t l -> (get (t_resolver t) m <> None <-> In (t_resolver t) (names p))) ->
  (instantiateRouter CA Cert Key w id l m <> None <-> forall t, In t l -> route_ok w p t).
Proof.
  intros D. unfold instantiateRouter.
  assert (RT : Router_model.instantiateRouter (w_match w) (w_addr w) (w_type w) (entries 0 l) <> None <->
    forall t, In t l -> (forall y, In y (t_types t) \/ (t_type t = y /\ y <> "") -> w_type w (upper y) <> None) /\
      (t_class t = "" \/ exists c, class_text (t_class t) c) /\ (forall d, In d (t_weekdays t) -> exists n, day_text d n) /\ time_ok (t_before t) /\ time_ok (t_after t) /\
      net_ok w (t_source t) /\ net_ok w (t_ecs t) /\ (forall e, In e [t_name t; t_dohpath t; t_listener t; t_tls t] -> w_match w e <> None)).
  { unfold Router_model.instantiateRouter. rewrite all_some_iff.
    assert (ONE : forall j t, option_map (Router_model.invert (Router_model.re_invert (entry j t))) (Router_model.newRoute (w_match w) (w_addr w) (w_type w) (Router_model.entry_cfg (entry j t))) <> None <->
      (forall y, In y (t_types t) \/ (t_type t = y /\ y <> "") -> w_type w (upper y) <> None) /\
      (t_class t = "" \/ exists c, class_text (t_class t) c) /\ (forall d, In d (t_weekdays t) -> exists n, day_text d n) /\ time_ok (t_before t) /\ time_ok (t_after t) /\
      net_ok w (t_source t) /\ net_ok w (t_ecs t) /\ (forall e, In e [t_name t; t_dohpath t; t_listener t; t_tls t] -> w_match w e <> None)).
    { intros j t. rewrite map_none, route_new. unfold entry, Router_model.entry_cfg.
      cbn [Router_model.re_cfg Router_model.re_type Router_model.rc_types Router_model.rc_weekdays Router_model.rc_before Router_model.rc_after Router_model.rc_class Router_model.rc_name Router_model.rc_dohpath Router_model.rc_listener Router_model.rc_tls Router_model.rc_source Router_model.rc_ecs].
      rewrite !time_some, class_some, weekdays_some, !net_some. unfold Router_model.stringToType. rewrite all_some_iff.
      assert (TY : (forall x, In x (if String.eqb (t_type t) "" then t_types t else t_types t ++ [t_type t])%list -> w_type w (upper x) <> None) <->
        (forall y, In y (t_types t) \/ (t_type t = y /\ y <> "") -> w_type w (upper y) <> None)).
      { destruct (String.eqb_spec (t_type t) "") as [E|E].
        - split; intros H y; [intros [I|(<- & N)]; [exact (H y I)|congruence]|intros I; apply H; auto].
        - split; intros H y; [intros [I|(<- & N)]; apply H, in_or_app; cbn; auto|]. intros I. apply in_app_or in I. apply H. destruct I as [I|[<-|[]]]; auto. }
      rewrite TY. cbn [In].
      assert (MA : (forall e, t_name t = e \/ t_dohpath t = e \/ t_listener t = e \/ t_tls t = e \/ False -> w_match w e <> None) <->
        w_match w (t_name t) <> None /\ w_match w (t_dohpath t) <> None /\ w_match w (t_listener t) <> None /\ w_match w (t_tls t) <> None).
      { split; [intros H; repeat split; apply H; tauto|]. intros (A & B & C & E) e [<-|[<-|[<-|[<-|[]]]]]; assumption. }
      rewrite MA. tauto. }
    split.
    - intros H t I. destruct (entries_has l 0 t I) as (j & J). exact (proj1 (ONE j t) (H _ J)).
    - intros H e I. destruct (entries_in l 0 e I) as (t & j & J & ->). exact (proj2 (ONE j t) (H t J)). }
  assert (LK : ModCfg_model.lookup_all node (fun n => get n m) (map t_resolver l) <> None <-> forall t, In t l -> In (t_resolver t) (names p)).
  { rewrite look_some. split.
    - intros H t I. apply (D t I), H, in_map, I.
    - intros H n I. apply in_map_iff in I. destruct I as (t & <- & I). apply (D t I), H, I. }
  unfold route_ok. destruct (ModCfg_model.lookup_all node (fun n => get n m) (map t_resolver l)) as [to|].
  - rewrite map_none, RT. assert (X : forall t, In t l -> In (t_resolver t) (names p)) by (apply LK; discriminate). split; intros H t I; specialize (H t I); [split; [exact (X t I)|exact H]|exact (proj2 H)].
  - split; [congruence|]. intros H. exfalso. refine (proj2 LK _ eq_refl). intros t I. exact (proj1 (H t I)).
Qed.

(** *** Listeners *)
Lemma listener_accepted p m id l rnd : (get (LCfg_model.l_resolver l) m <> None <-> In (LCfg_model.l_resolver l) (served_names p)) ->
  (LCfg_model.instantiateListener node CA Cert Key (lworld CA Cert Key w node (fun n => get n m)) id l rnd <> None <-> listener_ok w p l rnd).
Proof.
  intros D. pose proof (LCfg_proofs.starts (lworld CA Cert Key w node (fun n => get n m)) id l rnd PO) as S. unfold LCfg_spec.started in S. rewrite some_none, S. clear S.
  unfold listener_ok. cbv zeta. rewrite <- (known_in (served_names p)) in D.
  unfold LCfg_spec.acceptable, LCfg_spec.makeable, LCfg_spec.has_key, LCfg_spec.files, LCfg_spec.network. cbn [lworld LCfg_model.w_resolver LCfg_model.w_addr LCfg_model.w_pem LCfg_model.w_load LCfg_model.w_hex LCfg_model.w_pair].
  rewrite D. reflexivity.
Qed.
Lemma listeners_spec rnd m l : match listeners CA Cert Key w rnd m l with
  | None => exists id s, In (id, s) l /\ LCfg_model.instantiateListener node CA Cert Key (lworld CA Cert Key w node (fun n => get n m)) id s (rnd id) = None
  | Some ps => Forall2 (fun x p => LCfg_spec.started (lworld CA Cert Key w node (fun n => get n m)) (fst x) (snd x) (rnd (fst x)) p) l ps
  end.
Proof.
  induction l as [|[id s] l IH]; cbn [listeners]; [constructor|]. destruct (LCfg_model.instantiateListener _ _ _ _ _ _ _) as [p|] eqn:E; [|exists id, s; split; [left; reflexivity|exact E]].
  destruct (listeners _ _ _ _ _ _ _) as [ps|]; cbn [option_map]; [constructor; [exact E|exact IH]|]. destruct IH as (i & x & I & J). exists i, x. split; [right; exact I|exact J].
Qed.
End S.
