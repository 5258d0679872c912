(** What was sent and received, and where answers come from. *)
From Verif Require Import Base Bytes Dns Groups_model Client_spec Client_proofs Pipeline_model Pipeline_proofs.
Local Open Scope nat_scope.

Ltac fields := cbn [reqs callers main requeue writer reader stop inflight conn wires crash set_reqs set_callers set_main set_requeue set_writer set_reader set_stop set_inflight set_conn set_wires set_crash] in *.

Fixpoint sentc (w : list wire) (j : nat) : nat :=
  match w with [] => 0 | Sent _ k _ _ :: w => one k j + sentc w j | Received _ _ :: w => sentc w j end.
Lemma sentc_app w w' j : sentc (w ++ w') j = sentc w j + sentc w' j.
Proof. induction w as [|[n k id m|n a] w IH]; cbn [app sentc]; lia. Qed.
Lemma sentc_in w j : 1 <= sentc w j <-> exists n id m, In (Sent n j id m) w.
Proof.
  induction w as [|[n k id m|n a] w IH]; cbn [sentc].
  - split; [lia|]. intros (n & id & m & []).
  - unfold one. destruct (Nat.eqb_spec k j) as [->|N].
    + split; [|lia]. intros _. exists n, id, m. left. reflexivity.
    + cbn [Nat.add]. rewrite IH. split; intros (n' & id' & m' & I).
      * exists n', id', m'. right. exact I.
      * destruct I as [I|I]; [congruence|]. exists n', id', m'. exact I.
  - rewrite IH. split; intros (n' & id' & m' & I); exists n', id', m'.
    + right. exact I.
    + destruct I as [I|I]; [discriminate I|exact I].
Qed.

(** The answer a0 received for request j *)
Definition from (w : list wire) (j : nat) (q a : msg) : Prop :=
  exists n m a0, In (Sent n j (m_id a0) m) w /\ In (Received n a0) w /\ a = set_id (m_id q) a0.

Record Reqs (l : list pevent) (w : list wire) (c : nat -> caller) (f : nat -> option request) : Prop := {
  q_req : forall j r, f j = Some r -> In (ECall j (r_q r)) l;
  q_call : forall j q, In (ECall j q) l -> exists r, f j = Some r /\ r_q r = q;
  q_sent : forall n j id m, In (Sent n j id m) w -> exists r, f j = Some r /\ m = set_id id (r_q r) /\ (id < 65536)%N /\ r_id r = id;
  q_done : forall j r a, f j = Some r -> r_done r = Some (Ans a) -> from w j (r_q r) a;
  q_ret : forall j a, c j = CRet (Ans a) -> exists r, f j = Some r /\ r_done r = Some (Ans a) /\ validateResponseQuestion (r_q r) a = true
}.
Definition unsent (s : pipe) (j : nat) : nat :=
  cnt_main s j + cnt (requeue s) j + match writer s with WGot k => one k j | _ => 0 end + match callers s j with COffer => 1 | _ => 0 end.
Record Inv2 (l : list pevent) (s : pipe) : Prop := {
  w_reqs : Reqs l (wires s) (callers s) (reqs s);
  w_once : forall j, sentc (wires s) j + unsent s j <= 1;
  w_fly : forall id j, In (id, j) (inflight s) -> exists m, In (Sent (conn s) j id m) (wires s);
  w_got : forall a, reader s = RGot a -> In (Received (conn s) a) (wires s);
  w_match : forall k a, reader s = RMatch k a -> In (Received (conn s) a) (wires s) /\ exists m, In (Sent (conn s) k (m_id a) m) (wires s)
}.

Lemma from_grow w x j q a : from w j q a -> from (w ++ x) j q a.
Proof. intros (n & m & a0 & H1 & H2 & H3). exists n, m, a0. split; [apply in_or_app; left; exact H1|]. split; [apply in_or_app; left; exact H2|exact H3]. Qed.

Lemma reqs_done l w c f k r res : Reqs l w c f -> f k = Some r -> r_done r = None -> (forall a, res = Ans a -> from w k (r_q r) a) ->
  Reqs l w c (upd f k (Some (Request (r_q r) (r_id r) (Some res)))).
Proof.
  intros [H1 H2 H3 H4 H5] E D F. constructor.
  - intros j r' G. destruct (Nat.eq_dec k j) as [<-|N]; [rewrite upd_eq in G; injection G as <-; cbn; apply H1, E|rewrite upd_neq in G by exact N; apply H1, G].
  - intros j q I. destruct (H2 j q I) as (r' & G1 & G2). destruct (Nat.eq_dec k j) as [<-|N]; [rewrite upd_eq; eexists; split; [reflexivity|]; cbn; congruence|rewrite upd_neq by exact N; exists r'; auto].
  - intros n j id m I. destruct (H3 n j id m I) as (r' & G1 & G2 & G3 & G4). destruct (Nat.eq_dec k j) as [<-|N].
    + rewrite upd_eq. eexists. split; [reflexivity|]. cbn. assert (r' = r) as -> by congruence. auto.
    + rewrite upd_neq by exact N. exists r'. auto.
  - intros j r' a G1 G2. destruct (Nat.eq_dec k j) as [<-|N].
    + rewrite upd_eq in G1. injection G1 as <-. cbn in *. injection G2 as ->. apply F. reflexivity.
    + rewrite upd_neq in G1 by exact N. apply (H4 j r' a G1 G2).
  - intros j a C. destruct (H5 j a C) as (r' & G1 & G2 & G3). destruct (Nat.eq_dec k j) as [<-|N]; [congruence|rewrite upd_neq by exact N; exists r'; auto].
Qed.
Lemma mark_err l s k e : Reqs l (wires s) (callers s) (reqs s) -> Reqs l (wires s) (callers s) (reqs (markDone k (Err e) s)).
Proof.
  intros H. unfold markDone. destruct (reqs s k) as [r|] eqn:E; [|exact H]. destruct (r_done r) eqn:D; [exact H|]. fields.
  apply (reqs_done l _ _ _ k r _ H E D). discriminate.
Qed.
Lemma mark_other k res s : markDone k res s = set_crash (crash (markDone k res s)) (set_reqs (reqs (markDone k res s)) s).
Proof. unfold markDone. destruct s. fields. destruct (reqs k) as [r|]; [|reflexivity]. destruct (r_done r); reflexivity. Qed.
Lemma fold_err l ks : forall s, Reqs l (wires s) (callers s) (reqs s) -> let s' := fold_left (fun s k => markDone k (Err "closed") s) ks s in
  Reqs l (wires s') (callers s') (reqs s') /\ s' = set_crash (crash s') (set_reqs (reqs s') s).
Proof.
  induction ks as [|k ks IH]; intros s H; cbn [fold_left]; [split; [exact H|destruct s; reflexivity]|].
  pose proof (mark_other k (Err "closed") s) as M. pose proof (mark_err l s k "closed" H) as R.
  destruct (IH (markDone k (Err "closed") s)) as [I1 I2]; [rewrite M; fields; exact R|]. split; [exact I1|].
  cbv zeta in *. rewrite I2 at 1. rewrite M at 3. fields. reflexivity.
Qed.

Lemma reqs_caller l w c f k v : Reqs l w c f -> (forall a, v <> CRet (Ans a)) -> Reqs l w (upd c k v) f.
Proof.
  intros [H1 H2 H3 H4 H5] V. constructor; try assumption. intros j a C. destruct (Nat.eq_dec k j) as [<-|N]; [rewrite upd_eq in C; destruct (V a C)|rewrite upd_neq in C by exact N; apply H5, C].
Qed.
Lemma reqs_event l w c f e : Reqs l w c f -> (forall k q, e <> ECall k q) -> Reqs (l ++ [e]) w c f.
Proof.
  intros [H1 H2 H3 H4 H5] V. constructor; try assumption.
  - intros j r E. apply in_or_app. left. apply H1, E.
  - intros j q I. apply in_app_or in I. destruct I as [I|[I|[]]]; [apply H2, I|destruct (V j q I)].
Qed.
Lemma reqs_received l w c f n a : Reqs l w c f -> Reqs l (w ++ [Received n a]) c f.
Proof.
  intros [H1 H2 H3 H4 H5]. constructor; try assumption.
  - intros n' j id m I. apply in_app_or in I. destruct I as [I|[I|[]]]; [apply (H3 _ _ _ _ I)|discriminate I].
  - intros j r a' E D. apply from_grow, (H4 j r a' E D).
Qed.
Lemma reqs_sent l w c f n k id r : Reqs l w c f -> f k = Some r -> sentc w k = 0 -> (id < 65536)%N ->
  Reqs l (w ++ [Sent n k id (set_id id (r_q r))]) c (upd f k (Some (Request (r_q r) id (r_done r)))).
Proof.
  intros [H1 H2 H3 H4 H5] E Z L. constructor.
  - intros j r' G. destruct (Nat.eq_dec k j) as [<-|N]; [rewrite upd_eq in G; injection G as <-; cbn; apply H1, E|rewrite upd_neq in G by exact N; apply H1, G].
  - intros j q I. destruct (H2 j q I) as (r' & G1 & G2). destruct (Nat.eq_dec k j) as [<-|N]; [rewrite upd_eq; eexists; split; [reflexivity|]; cbn; congruence|rewrite upd_neq by exact N; exists r'; auto].
  - intros n' j id' m I. apply in_app_or in I. destruct I as [I|[I|[]]].
    + assert (N : k <> j) by (intros <-; assert (1 <= sentc w k) by (apply sentc_in; eauto); lia). rewrite upd_neq by exact N. apply (H3 _ _ _ _ I).
    + injection I as <- <- <- <-. rewrite upd_eq. eexists. split; [reflexivity|]. cbn. auto.
  - intros j r' a G1 G2. apply from_grow. destruct (Nat.eq_dec k j) as [<-|N].
    + rewrite upd_eq in G1. injection G1 as <-. cbn in *. apply (H4 k r a E G2).
    + rewrite upd_neq in G1 by exact N. apply (H4 j r' a G1 G2).
  - intros j a C. destruct (H5 j a C) as (r' & G1 & G2 & G3). destruct (Nat.eq_dec k j) as [<-|N].
    + rewrite upd_eq. eexists. split; [reflexivity|]. cbn. assert (r' = r) as -> by congruence. auto.
    + rewrite upd_neq by exact N. exists r'. auto.
Qed.

Ltac uns := unfold unsent, cnt_main in *; fields.
Ltac easy2 := fields; try assumption; try discriminate.

Lemma inv2_init : Inv2 [] pipe_init.
Proof.
  constructor; cbn; try discriminate; try (intros; tauto); try (intros; lia). constructor; cbn; try discriminate; intros; try contradiction.
Qed.

Theorem inv2_step l s e s' : Inv s -> Inv2 l s -> pipe_step s e = Some s' -> Inv2 (l ++ [e]) s'.
Proof.
  intros I1 [Hq Ho Hf Hg Hm] ST.
  assert (EV : forall e' w c f, e = e' -> (forall k q, e' <> ECall k q) -> Reqs l w c f -> Reqs (l ++ [e]) w c f) by (intros e' w c f -> V R; apply reqs_event; assumption).
  destruct e as [k q|k|k| |e|k|id| |e| | | |a| | | | | |k|k|k]; cbn [pipe_step] in ST.
  - (* call *)
    destruct (callers s k) eqn:C; try discriminate. injection ST as <-. pose proof (i_req s I1 k) as P. unfold POk in P. rewrite C in P. destruct P as [P1 P2].
    assert (Z : sentc (wires s) k = 0). { destruct (sentc (wires s) k) eqn:Z; [reflexivity|]. destruct (proj1 (sentc_in (wires s) k)) as (n' & id & m & X); [lia|]. destruct (q_sent _ _ _ _ Hq _ _ _ _ X) as (r & G & _). congruence. }
    assert (NC : forall j a, k = j -> callers s j <> CRet (Ans a)) by (intros j a <-; congruence).
    constructor; easy2.
    + destruct Hq as [H1 H2 H3 H4 H5]. constructor.
      * intros j r' G. apply in_or_app. destruct (Nat.eq_dec k j) as [<-|N]; [rewrite upd_eq in G; injection G as <-; right; left; reflexivity|rewrite upd_neq in G by exact N; left; apply H1, G].
      * intros j q' I. apply in_app_or in I. destruct I as [I|[I|[]]].
        -- destruct (H2 j q' I) as (r & G1 & G2). assert (N : k <> j) by congruence. rewrite upd_neq by exact N. exists r. auto.
        -- injection I as <- <-. rewrite upd_eq. eexists. split; reflexivity.
      * intros n j id m I. destruct (H3 n j id m I) as (r & G1 & G2). assert (N : k <> j) by congruence. rewrite upd_neq by exact N. exists r. auto.
      * intros j r' a G1 G2. destruct (Nat.eq_dec k j) as [<-|N]; [rewrite upd_eq in G1; injection G1 as <-; discriminate G2|rewrite upd_neq in G1 by exact N; apply (H4 j r' a G1 G2)].
      * intros j a X. destruct (Nat.eq_dec k j) as [<-|N]; [rewrite upd_eq in X; discriminate X|rewrite upd_neq in X by exact N; rewrite upd_neq by exact N; apply (H5 j a X)].
    + intros j. specialize (Ho j). uns. destruct (Nat.eq_dec k j) as [<-|N]; [rewrite upd_eq|rewrite upd_neq by exact N; exact Ho].
      unfold places, cnt_main, cnt_writer in P2. destruct (writer s); lia.
  - destruct (callers s k) eqn:C; try discriminate. injection ST as <-. constructor; easy2.
    + apply reqs_event; [apply reqs_caller; [exact Hq|discriminate]|discriminate].
    + intros j. specialize (Ho j). uns. destruct (Nat.eq_dec k j) as [<-|N]; [rewrite upd_eq; lia|rewrite upd_neq by exact N; exact Ho].
  - (* main takes *)
    destruct (main s) eqn:M; try discriminate. destruct (receive k s) as [s1|] eqn:R; [|discriminate]. injection ST as <-. apply receive_spec in R. destruct R as [[C ->]|(C & I & ->)]; constructor; easy2.
    + apply reqs_event; [apply reqs_caller; [exact Hq|discriminate]|discriminate].
    + intros j. specialize (Ho j). uns. rewrite M in Ho. destruct (Nat.eq_dec k j) as [<-|N]; [rewrite upd_eq, one_refl; rewrite C in Ho; lia|rewrite upd_neq, one_neq by exact N; exact Ho].
    + apply reqs_event; [exact Hq|discriminate].
    + intros j. specialize (Ho j). uns. rewrite M, (cnt_remove k _ j I) in Ho. lia.
  - (* dial *)
    destruct (main s) as [|k| |] eqn:M; try discriminate. injection ST as <-. destruct (i_idle s I1 (or_intror (ex_intro _ k M))) as (Fl & Wr & Rd). constructor; easy2.
    + apply reqs_event; [exact Hq|discriminate].
    + intros j. specialize (Ho j). uns. rewrite M, Wr in Ho. cbn [cnt]. lia.
    + rewrite Fl. intros id j [].
  - destruct (main s) as [|k| |] eqn:M; try discriminate. injection ST as <-. pose proof (mark_other k (Err e) s) as MO. pose proof (mark_err l s k e Hq) as MR. rewrite MO. constructor; easy2.
    + apply reqs_event; [exact MR|discriminate].
    + intros j. specialize (Ho j). uns. rewrite M in Ho. lia.
  - (* writer takes *)
    destruct (writer s) eqn:W; try discriminate. destruct (receive k s) as [s1|] eqn:R; [|discriminate]. injection ST as <-. apply receive_spec in R. destruct R as [[C ->]|(C & I & ->)]; constructor; easy2.
    + apply reqs_event; [apply reqs_caller; [exact Hq|discriminate]|discriminate].
    + intros j. specialize (Ho j). uns. rewrite W in Ho. destruct (Nat.eq_dec k j) as [<-|N]; [rewrite upd_eq, one_refl; rewrite C in Ho; lia|rewrite upd_neq, one_neq by exact N; exact Ho].
    + apply reqs_event; [exact Hq|discriminate].
    + intros j. specialize (Ho j). uns. rewrite W, (cnt_remove k _ j I) in Ho. lia.
  - (* add *)
    destruct (writer s) as [| |k| | | |] eqn:W; try discriminate. destruct (Nat.leb _ _).
    + injection ST as <-. pose proof (mark_other k (Err "full") s) as MO. pose proof (mark_err l s k "full" Hq) as MR. rewrite MO. constructor; easy2.
      * apply reqs_event; [exact MR|discriminate].
      * intros j. specialize (Ho j). uns. rewrite W in Ho. lia.
    + destruct (lookup id (inflight s)) eqn:L; [discriminate|]. destruct (reqs s k) as [r|] eqn:E; [|discriminate]. destruct (N.ltb_spec id 65536) as [Lt|]; [|discriminate]. injection ST as <-.
      assert (Z : sentc (wires s) k = 0) by (specialize (Ho k); unfold unsent in Ho; rewrite W, one_refl in Ho; lia).
      constructor; easy2.
      * apply reqs_event; [|discriminate]. apply reqs_sent; assumption.
      * intros j. specialize (Ho j). rewrite sentc_app. cbn [sentc]. uns. rewrite W in Ho. lia.
      * intros id' j [X|X]; [injection X as <- <-; exists (set_id id (r_q r)); apply in_or_app; right; left; reflexivity|].
        destruct (Hf id' j X) as (m & G). exists m. apply in_or_app. left. exact G.
      * intros a X. apply in_or_app. left. apply Hg, X.
      * intros k' a X. destruct (Hm k' a X) as [G1 (m & G2)]. split; [apply in_or_app; left; exact G1|exists m; apply in_or_app; left; exact G2].
  - destruct (writer s) as [| | |k id| | |] eqn:W; try discriminate. injection ST as <-. constructor; easy2; [apply reqs_event; [exact Hq|discriminate]|]. intros j. specialize (Ho j). uns. rewrite W in Ho. exact Ho.
  - destruct (writer s) as [| | |k id| | |] eqn:W; try discriminate. injection ST as <-. constructor; easy2; [apply reqs_event; [exact Hq|discriminate]|]. intros j. specialize (Ho j). uns. rewrite W in Ho. exact Ho.
  - (* get back *)
    destruct (writer s) as [| | | |k id e| |] eqn:W; try discriminate. destruct (lookup id (inflight s)) as [k'|] eqn:L; injection ST as <-; constructor; easy2; try (apply reqs_event; [exact Hq|discriminate]);
    try (intros j; specialize (Ho j); uns; rewrite W in Ho; exact Ho).
    intros id' j X. apply remove_id_in in X. apply Hf, X.
  - destruct (writer s) as [| | | | |k e|] eqn:W; try discriminate. injection ST as <-. pose proof (mark_other k (Err e) s) as MO. pose proof (mark_err l s k e Hq) as MR. rewrite MO. constructor; easy2.
    + apply reqs_event; [exact MR|discriminate].
    + intros j. specialize (Ho j). uns. rewrite W in Ho. exact Ho.
  - destruct (writer s) eqn:W; try discriminate. destruct (stop s); [|discriminate]. injection ST as <-. constructor; easy2; [apply reqs_event; [exact Hq|discriminate]|]. intros j. specialize (Ho j). uns. rewrite W in Ho. exact Ho.
  - (* read *)
    destruct (reader s) eqn:R; try discriminate. injection ST as <-. constructor; easy2.
    + apply reqs_event; [|discriminate]. apply reqs_received, Hq.
    + intros j. specialize (Ho j). rewrite sentc_app. cbn [sentc]. uns. lia.
    + intros id j X. destruct (Hf id j X) as (m & G). exists m. apply in_or_app. left. exact G.
    + intros a' X. injection X as <-. apply in_or_app. right. left. reflexivity.
  - destruct (reader s) eqn:R; try discriminate. injection ST as <-. constructor; easy2. apply reqs_event; [exact Hq|discriminate].
  - (* get *)
    destruct (reader s) as [| |a| |] eqn:R; try discriminate. destruct (lookup (m_id a) (inflight s)) as [k|] eqn:L; injection ST as <-; constructor; easy2; try (apply reqs_event; [exact Hq|discriminate]).
    + intros id' j X. apply remove_id_in in X. apply Hf, X.
    + intros k' a' X. injection X as <- <-. split; [apply Hg; reflexivity|]. apply Hf, lookup_some, L.
  - (* complete *)
    destruct (reader s) as [| | |k a|] eqn:R; try discriminate. injection ST as <-. destruct (Hm k a eq_refl) as [G1 (m & G2)].
    assert (P : places s k >= 1) by (unfold places, cnt_reader; rewrite R, one_refl; lia). destruct (POk_held s k (i_req s I1 k) P) as (r & E & D & _).
    destruct (mark_reqs s k (Ans a) r E D) as (res' & -> & ->). constructor; easy2.
    apply reqs_event; [|discriminate]. apply reqs_done; try assumption. intros a' [= <-]. exists (conn s), m, a. auto.
  - destruct (main s) eqn:M; try discriminate. destruct (writer s) eqn:W; try discriminate. destruct (reader s) eqn:R; try discriminate. injection ST as <-. constructor; easy2.
    + apply reqs_event; [exact Hq|discriminate].
    + intros j. specialize (Ho j). uns. rewrite M, W in Ho. rewrite W. exact Ho.
    + rewrite R. discriminate.
    + rewrite R. discriminate.
  - (* drain *)
    destruct (main s) eqn:M; try discriminate. injection ST as <-. destruct (fold_err l (map snd (inflight s)) s Hq) as [F1 F2]. cbv zeta in *. destruct (i_drain s I1 M) as [W R].
    set (s1 := fold_left _ _ s) in *. rewrite F2 in *. constructor; easy2.
    + apply reqs_event; [exact F1|discriminate].
    + intros j. specialize (Ho j). uns. rewrite M, W in Ho. lia.
    + intros id j [].
  - (* done *)
    destruct (callers s k) eqn:C; try discriminate. destruct (reqs s k) as [r|] eqn:E; [|discriminate]. destruct (r_done r) as [res|] eqn:D; [|discriminate]. injection ST as <-. constructor; easy2.
    + apply reqs_event; [|discriminate]. destruct Hq as [H1 H2 H3 H4 H5]. constructor; try assumption. intros j a X. destruct (Nat.eq_dec k j) as [<-|N]; [|rewrite upd_neq in X by exact N; apply H5, X].
      rewrite upd_eq in X. injection X as X. exists r. unfold waitFor in X. destruct res as [a'| |e']; try discriminate X. destruct (validateResponseQuestion (r_q r) a') eqn:V; [|discriminate X]. injection X as ->. auto.
    + intros j. specialize (Ho j). uns. destruct (Nat.eq_dec k j) as [<-|N]; [rewrite upd_eq; rewrite C in Ho; lia|rewrite upd_neq by exact N; exact Ho].
  - destruct (callers s k) eqn:C; try discriminate. injection ST as <-. constructor; easy2.
    + apply reqs_event; [apply reqs_caller; [exact Hq|discriminate]|discriminate].
    + intros j. specialize (Ho j). uns. destruct (Nat.eq_dec k j) as [<-|N]; [rewrite upd_eq; rewrite C in Ho; lia|rewrite upd_neq by exact N; exact Ho].
  - (* delete *)
    destruct (callers s k) eqn:C; try discriminate. destruct (reqs s k) as [r|] eqn:E; [|discriminate]. injection ST as <-.
    assert (X : forall s1, s1 = s \/ s1 = set_inflight (remove_id (r_id r) (inflight s)) s -> Inv2 (l ++ [EDelete k]) (set_callers (upd (callers s1) k (CRet (Err "timeout"))) s1)).
    { intros s1 [->| ->]; constructor; easy2; try (apply reqs_event; [apply reqs_caller; [exact Hq|discriminate]|discriminate]);
      try (intros j; specialize (Ho j); uns; destruct (Nat.eq_dec k j) as [<-|N]; [rewrite upd_eq; rewrite C in Ho; lia|rewrite upd_neq by exact N; exact Ho]).
      intros id' j X. apply remove_id_in in X. apply Hf, X. }
    apply X. destruct (lookup (r_id r) (inflight s)) as [k'|]; [destruct (Nat.eqb k' k); [right; reflexivity|left; reflexivity]|left; reflexivity].
Qed.
Theorem inv2_exec l s : pipe_exec pipe_init l = Some s -> Inv2 l s.
Proof.
  revert s. induction l as [|e l IH] using rev_ind; intros s H; [injection H as <-; exact inv2_init|].
  rewrite exec_app in H. destruct (pipe_exec pipe_init l) as [s1|] eqn:X; [|discriminate]. cbn [pipe_exec] in H. destruct (pipe_step s1 e) as [s2|] eqn:E; [|discriminate].
  injection H as <-. exact (inv2_step l s1 e s2 (inv_exec l s1 X) (IH s1 eq_refl) E).
Qed.
