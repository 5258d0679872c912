(** What follows from the invariant: the theorems of C78. *)
From Verif Require Import Base Life_model Life_spec Life_proofs.
From Coq Require Import Lia.
Local Open Scope nat_scope.

Lemma put_put {A} (x y : A) : forall i l, put i x (put i y l) = put i x l.
Proof. induction i as [|i IH]; intros [|z l]; cbn; auto. now rewrite IH. Qed.
Lemma took_tok k s : inv k s -> took s -> tok k s (Done Took).
Proof. intros [_ F] T. rewrite Forall_forall in F. now apply F. Qed.
Lemma stop_done_keeps k o s : stop_step k (Done o) s = None.
Proof. destruct k as [? ?| | | |]; reflexivity. Qed.
Lemma step_took k a s s' : step k a s = Some s' -> took s -> took s'.
Proof.
  unfold took. destruct a as [ok| |i| |]; cbn; intros H T.
  - unfold start_step in H. destruct k as [[|] [|]| | | |]; destruct (pc s); split_ifs; try discriminate; injection H as <-; exact T.
  - injection H as <-. cbn. apply in_or_app. auto.
  - destruct (nth_error (stops s) i) as [t|] eqn:E; [|discriminate]. destruct (stop_step k t s) as [[t' s1]|] eqn:E1; [|discriminate]. injection H as <-. cbn.
    assert (stops s1 = stops s) as ->.
    { unfold stop_step in E1. destruct k as [[|] ?| | | |]; destruct t; split_ifs; try discriminate; injection E1 as <- <-; reflexivity. }
    eapply in_put_other; eauto. intros <-. now rewrite stop_done_keeps in E1.
  - destruct (accepts k s); [|discriminate]. injection H as <-. exact T.
  - destruct (inflight s); [discriminate|]. injection H as <-. exact T.
Qed.

(** Nothing is accepted any more. *)
Lemma took_quiet1 k s : inv k s -> took s -> accepts k s = false.
Proof.
  intros I T. pose proof (took_tok _ _ I T) as K. destruct I as [G _]. destruct s as [p so pu dn de sh br n lo sts].
  unfold ginv, tok, accepts, serving in *. cbn in *. destruct k as [? ?| | | |]; destruct p; cbn in *; intuition (subst; cbn; auto; try congruence).
  all: rewrite ?andb_false_r; auto.
Qed.
Lemma quiet k ls s : run k ls init = Some s -> took s -> forall ls' s', run k ls' s = Some s' -> ~ In Query ls'.
Proof.
  intros R T ls' s' R'. apply reach_inv in R. revert s R T R'. induction ls' as [|a ls' IH]; intros s I T R'; cbn; [auto|].
  cbn in R'. destruct (step k a s) as [s1|] eqn:E; [|discriminate]. intros [->|H].
  - cbn in E. rewrite took_quiet1 in E by auto. discriminate.
  - exact (IH s1 (step_inv _ _ _ _ I E) (step_took _ _ _ _ E T) R' H).
Qed.

(** Start ends: it can go on, and has few steps left. *)
Definition left (p : spc) : nat := match p with Fresh => 3 | Made => 2 | Bound => 1 | Serving => 1 | Draining _ => 1 | Returned _ => 0 end.
Lemma took_enabled k s : inv k s -> took s -> broken s = false -> ~ returned s -> exists s', step k (Go true) s = Some s'.
Proof.
  intros I T B N. pose proof (took_tok _ _ I T) as K. destruct I as [G _]. destruct s as [p so pu dn de sh br n lo sts].
  unfold ginv, tok, returned in *. cbn in *. subst br. unfold start_step. cbn. destruct k as [? ?| | | |]; destruct p; cbn in *; try solve [exfalso; eauto].
  all: try solve [intuition congruence]. all: try solve [eexists; reflexivity]. all: repeat match goal with H : _ /\ _ |- _ => destruct H end; subst; cbn; try solve [eexists; reflexivity]; try congruence.
  all: try (destruct dn; try congruence; eexists; reflexivity).
Qed.
Lemma took_left k ok s s' : inv k s -> took s -> step k (Go ok) s = Some s' -> (left (pc s') < left (pc s))%nat.
Proof.
  intros I T H. pose proof (took_tok _ _ I T) as K. destruct I as [G _]. destruct s as [p so pu dn de sh br n lo sts].
  unfold ginv, tok in *. cbn in *. unfold start_step in H. cbn in H. destruct k as [[|] [|]| | | |]; destruct p; cbn in *; split_ifs; try discriminate; try (injection H as <-; cbn; lia).
  all: repeat match goal with H : _ /\ _ |- _ => destruct H end; try congruence.
Qed.
Lemma step_left k a s s' : step k a s = Some s' -> (forall ok, a <> Go ok) -> pc s' = pc s.
Proof.
  destruct a as [ok| |i| |]; cbn; intros H N; [exfalso; now apply (N ok)| | | |].
  - injection H as <-. reflexivity.
  - destruct (nth_error (stops s) i) as [t|]; [|discriminate]. destruct (stop_step k t s) as [[t' s1]|] eqn:E1; [|discriminate]. injection H as <-. cbn.
    unfold stop_step in E1. destruct k as [[|] ?| | | |]; destruct t; split_ifs; try discriminate; injection E1 as <- <-; reflexivity.
  - destruct (accepts k s); [|discriminate]. injection H as <-. reflexivity.
  - destruct (inflight s); [discriminate|]. injection H as <-. reflexivity.
Qed.
Lemma few k : forall ls s s', inv k s -> took s -> run k ls s = Some s' -> gos ls + left (pc s') <= left (pc s).
Proof.
  induction ls as [|a ls IH]; intros s s' I T R; cbn in R; [injection R as <-; cbn; lia|].
  destruct (step k a s) as [s1|] eqn:E; [|discriminate]. specialize (IH s1 s' (step_inv _ _ _ _ I E) (step_took _ _ _ _ E T) R).
  destruct a as [ok| |i| |]; cbn [gos].
  - pose proof (took_left _ _ _ _ I T E). lia.
  - apply step_left in E; [rewrite E in IH; lia|discriminate].
  - apply step_left in E; [rewrite E in IH; lia|discriminate].
  - apply step_left in E; [rewrite E in IH; lia|discriminate].
  - apply step_left in E; [rewrite E in IH; lia|discriminate].
Qed.
Lemma ends k ls s : run k ls init = Some s -> took s -> 
  (broken s = false -> returned s \/ exists s', step k (Go true) s = Some s') /\
  forall ls' s', run k ls' s = Some s' -> gos ls' <= 3.
Proof.
  intros R T. apply reach_inv in R. split.
  - intros B. destruct (pc s) eqn:E; [right|right|right|right|right|left; red; eauto].
    all: apply took_enabled; auto; unfold returned; rewrite E; intros [? ?]; discriminate.
  - intros ls' s' R'. pose proof (few _ _ _ _ R T R'). assert (left (pc s) <= 3) by (destruct (pc s); cbn; lia). lia.
Qed.

(** The socket. *)
Lemma closed k ls s : run k ls init = Some s -> took s -> returned s -> sock s = false.
Proof.
  intros R T [ok Hr]. apply reach_inv in R. pose proof (took_tok _ _ R T) as K. destruct R as [G _]. destruct s as [p so pu dn de sh br n lo sts].
  unfold ginv, tok in *. cbn in *. subst p. destruct k as [? ?| | | |]; cbn in *; intuition (try congruence).
  destruct so; auto. intuition congruence.
Qed.
Definition closing (s : st) : Prop := In Close1 (stops s) \/ In Close2 (stops s) \/ In Close3 (stops s).
Lemma down_stop k ls s : is_quic k = true -> run k ls init = Some s -> down s = true -> In Close2 (stops s) \/ In Close3 (stops s) \/ In (Done Took) (stops s).
Proof.
  intros Q R. assert (H : forall ls s0 s, (down s0 = true -> In Close2 (stops s0) \/ In Close3 (stops s0) \/ In (Done Took) (stops s0)) -> run k ls s0 = Some s -> down s = true ->
    In Close2 (stops s) \/ In Close3 (stops s) \/ In (Done Took) (stops s)).
  2:{ eapply H; [|exact R]. discriminate. }
  clear ls s R. induction ls as [|a ls IH]; intros s0 s H R; cbn in R; [injection R as <-; auto|].
  destruct (step k a s0) as [s1|] eqn:E; [|discriminate]. eapply IH; [|exact R]. clear IH R s. destruct a as [ok| |i| |]; cbn in E.
  - unfold start_step in E. destruct k as [? ?| | | |]; try discriminate Q; destruct (pc s0); split_ifs; try discriminate; injection E as <-; cbn; auto; congruence.
  - injection E as <-. cbn. intros D. specialize (H D). rewrite !in_app_iff. tauto.
  - destruct (nth_error (stops s0) i) as [t|] eqn:En; [|discriminate]. destruct (stop_step k t s0) as [[t' s2]|] eqn:E1; [|discriminate]. injection E as <-. cbn.
    assert (P : forall t', In t' (put i t' (stops s0))) by (intros; eapply nth_error_In, nth_put; eauto).
    pose proof (in_put_other t' Close2 i (stops s0) t En) as O2. pose proof (in_put_other t' Close3 i (stops s0) t En) as O3. pose proof (in_put_other t' (Done Took) i (stops s0) t En) as OT.
    unfold stop_step in E1. destruct k as [? ?| | | |]; try discriminate Q; destruct t; split_ifs; try discriminate; injection E1 as <- <-; cbn; intros D; auto.
    all: try (specialize (H D); destruct H as [H|[H|H]]; [left; apply O2; auto; discriminate|right; left; apply O3; auto; discriminate|right; right; apply OT; auto; discriminate]).
  - destruct (accepts k s0); [|discriminate]. injection E as <-. exact H.
  - destruct (inflight s0); [discriminate|]. injection E as <-. exact H.
Qed.
Lemma left_open k ls s ok : run k ls init = Some s -> pc s = Returned ok -> sock s = true ->
  ok = false /\ (is_quic k = true \/ k = Xs \/ k = Dns true true) \/ is_quic k = true /\ (In Close2 (stops s) \/ In Close3 (stops s)).
Proof.
  intros R Hr So. pose proof (reach_inv _ _ _ R) as I. destruct (is_quic k) eqn:Q.
  - destruct ok; [|auto]. right. split; auto. assert (D : down s = true).
    { destruct I as [[_ G] _]. rewrite Hr in G. destruct k as [? ?| | | |]; try discriminate Q; tauto. }
    destruct (down_stop _ _ _ Q R D) as [?|[?|T]]; auto. exfalso. pose proof (took_tok _ _ I T) as K. destruct k as [? ?| | | |]; try discriminate Q; cbn in K; intuition congruence.
  - left. destruct I as [[_ G] _]. rewrite Hr in G. destruct k as [u a| | | |]; try discriminate Q; intuition (subst; auto; try congruence).
Qed.

(** Queries being worked on. *)
Lemma drained k ls s : run k ls init = Some s -> is_quic k = false ->
  lost s = 0 /\ (k <> Xs -> took s -> inflight s = 0) /\ (forall u a, k = Dns u a -> returned s -> inflight s = 0).
Proof.
  intros R Q. apply reach_inv in R. split; [|split].
  - destruct R as [[L _] _]. auto.
  - intros X T. pose proof (took_tok _ _ R T) as K. destruct R as [[_ G] _]. destruct k as [u a| | | |]; try discriminate Q; try congruence; cbn in K; [|tauto].
    destruct (pc s); cbn in *; intuition congruence.
  - intros u a -> [ok Hr]. destruct R as [[_ G] _]. rewrite Hr in G. tauto.
Qed.

(** A call of Stop: what it does first, and that it takes effect on a server that is serving. *)
Lemma early k i s s' o : step k (StopStep i) s = Some s' -> nth_error (stops s) i = Some Begin -> nth_error (stops s') i = Some (Done o) -> o <> Took ->
  s' = with_stops (put i (Done o) (stops s)) s /\ (o = NotStarted <-> exists u a, k = Dns u a).
Proof.
  cbn. intros H E E' N. rewrite E in H. destruct (stop_step k Begin s) as [[t' s1]|] eqn:E1; [|discriminate]. injection H as <-. cbn in E'.
  assert (stops s1 = stops s) as Es.
  { unfold stop_step in E1. destruct k as [[|] ?| | | |]; split_ifs; try discriminate; injection E1 as <- <-; reflexivity. }
  rewrite Es in *. rewrite (nth_put _ _ _ _ E) in E'. injection E' as ->.
  unfold stop_step in E1. destruct k as [u a| | | |]; split_ifs; try discriminate; injection E1; intros; subst; try congruence; split; auto; split; intros; eauto; try discriminate.
  all: repeat match goal with H : exists _, _ |- _ => destruct H end; discriminate.
Qed.
Lemma effective k ls s i : run k ls init = Some s -> serving s = true -> nth_error (stops s) i = Some Begin ->
  exists s', step k (StopStep i) s = Some s' /\
    (nth_error (stops s') i = Some Wait \/ nth_error (stops s') i = Some Close1 \/ nth_error (stops s') i = Some (Done Took) \/
     down s = true /\ exists u a, k = Dns u a).
Proof.
  intros R S E. apply reach_inv in R. destruct R as [[_ G] _]. unfold serving in S. destruct (pc s) eqn:Ep; try discriminate. cbn. rewrite E.
  assert (P : pub s = true) by (destruct k as [? ?| | | |]; tauto). unfold stop_step. rewrite P. cbn.
  destruct k as [u a| | | |]; [destruct (down s) eqn:D; [|destruct u]| | | |].
  all: cbn [negb andb]; eexists; split; [reflexivity|].
  all: cbn; try (destruct (serving s); cbn); rewrite (nth_put _ _ _ _ E); eauto 8.
Qed.
(** A call of Stop that has begun can come to its end once no query is being worked on. *)
Lemma completes k ls s i t : run k ls init = Some s -> inflight s = 0 -> broken s = false -> nth_error (stops s) i = Some t ->
  exists ls' s' o, run k ls' s = Some s' /\ length ls' <= 4 /\ nth_error (stops s') i = Some (Done o).
Proof.
  intros R Z B E. apply reach_inv in R. pose proof R as [G F]. assert (K : tok k s t) by (rewrite Forall_forall in F; eauto using nth_error_In).
  assert (L : forall t s i, nth_error (stops s) i = Some t -> forall t' s1, stop_step k t s = Some (t', s1) -> stops s1 = stops s ->
    exists s', step k (StopStep i) s = Some s' /\ nth_error (stops s') i = Some t' /\ s' = with_stops (put i t' (stops s1)) s1).
  { intros t0 s0 i0 H t' s1 H1 Hs. exists (with_stops (put i0 t' (stops s1)) s1). cbn. rewrite H, H1. split; auto. split; auto. rewrite Hs. eapply nth_put; eauto. }
  destruct s as [p so pu dn de sh br n lo sts]. cbn in Z, B, E. subst n br.
  assert (P : forall t', nth_error (put i t' sts) i = Some t') by (intros; eapply nth_put; eauto).
  destruct k as [u a| | | |].
  - (* dns *)
    assert (W : forall sts p so sh dn, nth_error sts i = Some Wait -> dn = true -> (sh = true \/ sh = false /\ (p = Serving \/ exists b, p = Draining b)) ->
      exists ls' s' o, run (Dns u a) ls' (St p so pu dn de sh false 0 lo sts) = Some s' /\ length ls' <= 3 /\ nth_error (stops s') i = Some (Done o)).
    { intros sts0 p0 so0 sh0 dn0 H -> [->|[-> Hp]].
      - exists [StopStep i]. cbn. rewrite H. cbn. eexists _, _. split; [reflexivity|]. split; [lia|]. eapply nth_put; eauto.
      - destruct Hp as [->|[b ->]].
        + exists [Go true; Go true; StopStep i]. destruct a; cbn; rewrite H; cbn; eexists _, _; (split; [reflexivity|]; split; [lia|]; eapply nth_put; eauto).
        + exists [Go true; StopStep i]. destruct a; cbn; rewrite H; cbn; eexists _, _; (split; [reflexivity|]; split; [lia|]; eapply nth_put; eauto). }
    destruct t as [| | | | |o]; try contradiction K.
    + destruct (pu && negb dn) eqn:C.
      * apply andb_true_iff in C as [-> C]. apply negb_true_iff in C as ->.
        destruct (W (put i Wait sts) p (if u then so else false) sh true) as (ls' & s' & o & R' & Len & N); auto.
        { destruct G as [_ G]. cbn in G. destruct p; intuition eauto; try discriminate. }
        exists (StopStep i :: ls'), s', o. cbn [run step]. cbn [stops]. rewrite E. cbn. destruct u; cbn; (split; [exact R'|split; [lia|exact N]]).
      * exists [StopStep i]. cbn. rewrite E. cbn. rewrite C. eexists _, _. split; [reflexivity|]. split; [cbn; lia|]. apply P.
    + destruct (W sts p so sh dn) as (ls' & s' & o & R' & Len & N); auto.
      { destruct G as [_ G]. cbn in G, K. destruct p; intuition eauto; try congruence. }
      exists ls', s', o. split; [exact R'|split; [lia|exact N]].
    + exists [], (St p so pu dn de sh false 0 lo sts), o. cbn. auto with arith.
  - destruct t as [| | | | |o]; try contradiction K.
    + destruct pu.
      * exists [StopStep i; StopStep i]. cbn. rewrite E. cbn. destruct p; cbn; rewrite (P Wait); cbn; eexists _, _; (split; [reflexivity|split; [lia|]]); cbn; eapply nth_put; eauto.
      * exists [StopStep i]. cbn. rewrite E. cbn. eexists _, _. split; [reflexivity|]. split; [lia|]. apply P.
    + exists [StopStep i]. cbn. rewrite E. cbn. eexists _, _. split; [reflexivity|]. split; [lia|]. apply P.
    + exists [], (St p so pu dn de sh false 0 lo sts), o. cbn. auto with arith.
  - destruct t as [| | | | |o]; try contradiction K.
    + destruct pu.
      * exists [StopStep i; StopStep i; StopStep i; StopStep i]. cbn. rewrite E. cbn. repeat (rewrite ?put_put, P; cbn). eexists _, _; (split; [reflexivity|split; [lia|]]). cbn. rewrite ?put_put. apply P.
      * exists [StopStep i]. cbn. rewrite E. cbn. eexists _, _. split; [reflexivity|]. split; [lia|]. apply P.
    + exists [StopStep i; StopStep i; StopStep i]. cbn. rewrite E. cbn. repeat (rewrite ?put_put, P; cbn). eexists _, _; (split; [reflexivity|split; [lia|]]). cbn. rewrite ?put_put. apply P.
    + exists [StopStep i; StopStep i]. cbn. rewrite E. cbn. repeat (rewrite ?put_put, P; cbn). eexists _, _; (split; [reflexivity|split; [lia|]]). cbn. rewrite ?put_put. apply P.
    + exists [StopStep i]. cbn. rewrite E. cbn. eexists _, _. split; [reflexivity|]. split; [lia|]. apply P.
    + exists [], (St p so pu dn de sh false 0 lo sts), o. cbn. auto with arith.
  - destruct t as [| | | | |o]; try contradiction K.
    + destruct pu.
      * exists [StopStep i; StopStep i; StopStep i; StopStep i]. cbn. rewrite E. cbn. repeat (rewrite ?put_put, P; cbn). eexists _, _; (split; [reflexivity|split; [lia|]]). cbn. rewrite ?put_put. apply P.
      * exists [StopStep i]. cbn. rewrite E. cbn. eexists _, _. split; [reflexivity|]. split; [lia|]. apply P.
    + exists [StopStep i; StopStep i; StopStep i]. cbn. rewrite E. cbn. repeat (rewrite ?put_put, P; cbn). eexists _, _; (split; [reflexivity|split; [lia|]]). cbn. rewrite ?put_put. apply P.
    + exists [StopStep i; StopStep i]. cbn. rewrite E. cbn. repeat (rewrite ?put_put, P; cbn). eexists _, _; (split; [reflexivity|split; [lia|]]). cbn. rewrite ?put_put. apply P.
    + exists [StopStep i]. cbn. rewrite E. cbn. eexists _, _. split; [reflexivity|]. split; [lia|]. apply P.
    + exists [], (St p so pu dn de sh false 0 lo sts), o. cbn. auto with arith.
  - destruct t as [| | | | |o]; try contradiction K.
    + exists [StopStep i]. cbn. rewrite E. cbn. eexists _, _. split; [reflexivity|]. split; [lia|]. cbn. destruct pu; apply P.
    + exists [], (St p so pu dn de sh false 0 lo sts), o. cbn. auto with arith.
Qed.
(** A DoQ listener whose Accept failed never ends. *)
Lemma spins : forall ls s s', broken s = true -> pc s = Serving -> run Doq ls s = Some s' -> pc s' = Serving.
Proof.
  induction ls as [|a ls IH]; intros s s' B P R; cbn in R; [congruence|]. destruct (step Doq a s) as [s1|] eqn:E; [|discriminate].
  assert (broken s1 = true /\ pc s1 = Serving) as [B1 P1]; [|eauto].
  destruct a as [ok| |i| |]; cbn [step] in E.
  - unfold start_step in E. rewrite P, B in E. cbn in E. rewrite andb_false_r in E. split_ifs; try discriminate. injection E as <-. auto.
  - injection E as <-. auto.
  - destruct (nth_error (stops s) i) as [t|]; [|discriminate]. destruct (stop_step Doq t s) as [[t' s2]|] eqn:E1; [|discriminate]. injection E as <-. cbn.
    unfold stop_step in E1. destruct t; split_ifs; try discriminate; injection E1 as <- <-; auto.
  - destruct (accepts Doq s); [|discriminate]. injection E as <-. auto.
  - destruct (inflight s); [discriminate|]. injection E as <-. auto.
Qed.
