(** Proofs about the key of the target. *)
From Verif Require Import Base Bytes Client_model OdohC_model OdohC_spec.
From Coq Require Import Lia ZifyBool.

Lemma bounded_iff limit body broken b : readBoundedBody limit body broken = Some b <-> b = body /\ broken = false /\ (length body <= limit)%nat \/
  b = firstn (limit + 1) body /\ broken = true /\ (limit + 1 <= length body)%nat /\ (length b <= limit)%nat.
Proof.
  unfold readBoundedBody. destruct (broken && Nat.ltb (length body) (limit + 1)) eqn:E.
  - split; [discriminate|]. apply andb_prop in E as [-> E]. apply Nat.ltb_lt in E. intros [(_ & H & _)|(_ & _ & H & _)]; [discriminate|lia].
  - destruct (Nat.ltb_spec limit (length (firstn (limit + 1) body))) as [L|L].
    + split; [discriminate|]. rewrite firstn_length in L. intros [(_ & _ & H)|(-> & _ & _ & H)]; [lia|rewrite firstn_length in H; lia].
    + rewrite firstn_length in L. assert (length body <= limit)%nat by lia. rewrite firstn_all2 by lia. split.
      * intros [= <-]. destruct broken; [|auto]. cbn [andb] in E. apply Nat.ltb_ge in E. lia.
      * intros [(-> & _)|(_ & _ & H' & _)]; [reflexivity|lia].
Qed.
Section Key.
Variable cfg : Type.
Variable hexdecode : string -> option bytes.
Variable unmarshal : bytes -> option (list cfg).
Notation get := (getTargetConfig cfg hexdecode unmarshal).
Notation runs := (kruns cfg hexdecode unmarshal).
Notation entry := (kquery * kresult cfg * bool)%type.

Lemma refresh_key f t s c : refreshTargetKey cfg unmarshal f t = (s, Key c) <-> gives unmarshal f c /\ s = KState cfg (Some c) (t + day).
Proof.
  unfold refreshTargetKey, gives. destruct f as [r|].
  - assert (B : forall b, readBoundedBody maxDoHResponseSize (hr_body r) (hr_broken r) = Some b <-> b = hr_body r /\ hr_broken r = false /\ (length (hr_body r) <= N.to_nat 66047)%nat).
    { intros b. rewrite bounded_iff. unfold maxDoHResponseSize. change (65535 + 512)%N with 66047%N. split; [|tauto]. intros [|(-> & _ & H1 & H2)]; [assumption|]. rewrite firstn_length in H2. lia. }
    destruct (readBoundedBody maxDoHResponseSize (hr_body r) (hr_broken r)) as [b|] eqn:E.
    + destruct (proj1 (B b) eq_refl) as (-> & E1 & E2). destruct (unmarshal (hr_body r)) as [[|c' cs]|] eqn:U.
      * split; [discriminate|]. intros [(r' & cs & [= <-] & _ & _ & H) _]. congruence.
      * split; [intros [= <- <-]; split; [exists r, cs; auto|reflexivity]|]. intros [(r' & cs' & [= <-] & _ & _ & H) ->]. congruence.
      * split; [discriminate|]. intros [(r' & cs & [= <-] & _ & _ & H) _]. congruence.
    + split; [discriminate|]. intros [(r' & cs & [= <-] & H1 & H2 & _) _]. specialize (proj2 (B (hr_body r)) (conj eq_refl (conj H1 H2))). congruence.
  - split; [discriminate|]. intros [(r' & cs & H & _) _]. discriminate.
Qed.
Lemma refresh_err f t s : refreshTargetKey cfg unmarshal f t = (s, KErr) -> s = KState cfg None 0 /\ forall c, ~ gives unmarshal f c.
Proof.
  intros H. split.
  - unfold refreshTargetKey in H. destruct f as [r|]; [|congruence]. destruct (readBoundedBody _ _ _) as [b|]; [|congruence]. destruct (unmarshal b) as [[|? ?]|]; congruence.
  - intros c G. assert (X : refreshTargetKey cfg unmarshal f t = (KState cfg (Some c) (t + day), Key c)) by (apply refresh_key; auto). congruence.
Qed.

Lemma runs_snoc preset qs q : runs preset (qs ++ [q]) = kstep cfg hexdecode unmarshal preset (runs preset qs) q.
Proof. unfold kruns. now rewrite fold_left_app. Qed.
Lemma runs_head preset qs s q r a y : runs preset qs = (s, (q, r, a) :: y) -> exists qs' s', qs = (qs' ++ [q])%list /\ runs preset qs' = (s', y) /\ get preset s' (q_t0 q) (q_t1 q) (q_f q) = (s, r, a).
Proof.
  destruct qs as [|q' qs _] using rev_ind; [discriminate|]. rewrite runs_snoc. destruct (runs preset qs) as [s' l] eqn:E. cbn [kstep].
  destruct (get preset s' (q_t0 q') (q_t1 q') (q_f q')) as [[s1 r1] a1] eqn:G. intros [= <- <- <- <- <-]. exists qs, s'. auto.
Qed.
Lemma runs_suffix preset : forall x qs s y, runs preset qs = (s, (x ++ y)%list) -> exists qs' s', runs preset qs' = (s', y).
Proof.
  induction x as [|[[q r] a] x IH]; intros qs s y H; [eauto|]. cbn [app] in H. apply runs_head in H as (qs' & s' & _ & H & _). eauto.
Qed.

Lemma preset_runs preset qs s log : preset <> ""%string -> runs preset qs = (s, log) ->
  forall q r a, In (q, r, a) log -> a = false /\ forall c, r = Key c <-> exists b cs, hexdecode preset = Some b /\ unmarshal b = Some (c :: cs).
Proof.
  intros P H q r a I. apply in_split in I as (x & y & ->). apply runs_suffix in H as (qs' & s' & H). apply runs_head in H as (qs2 & s2 & _ & _ & G).
  unfold getTargetConfig in G. destruct (String.eqb_spec preset ""); [contradiction|]. cbn [negb] in G.
  destruct (hexdecode preset) as [b|]; [destruct (unmarshal b) as [[|c0 cs]|] eqn:U|]; injection G as <- <- <-; (split; [reflexivity|]); intros c; split; try discriminate.
  all: try (intros (b' & cs' & [= <-] & U'); congruence). all: try (intros (b' & cs' & E & U'); discriminate).
  - intros [= <-]. eauto.
Qed.

(** The state knows the latest key that was fetched. *)
Definition kinv (st : kstate cfg * list entry) : Prop :=
  match k_cfg cfg (fst st) with
  | Some c => exists y1 q' y2, snd st = (y1 ++ (q', Key c, true) :: y2)%list /\ gives unmarshal (q_f q') c /\ k_expiry cfg (fst st) = (q_t1 q' + day)%Z /\
                Forall (fun e : entry => snd e = false \/ snd (fst e) = KPanic) y1
  | None => match snd st with [] => True | (_, r, a) :: _ => a = true /\ (r = KErr \/ r = KPanic) end
  end.
Lemma kinv_ok qs : kinv (runs "" qs).
Proof.
  induction qs as [|q qs IH] using rev_ind; [exact I|]. rewrite runs_snoc. destruct (runs ""%string qs) as [s log]. cbn [kstep].
  unfold kinv in *. unfold getTargetConfig. cbn [String.eqb negb]. cbn [fst snd] in *.
  assert (Ask : forall s' r, refreshTargetKey cfg unmarshal (q_f q) (q_t1 q) = (s', r) -> (k_cfg cfg s = None \/ exists c, k_cfg cfg s = Some c) ->
    match k_cfg cfg (match r with KPanic => s | _ => s' end) with
    | Some c => exists y1 q' y2, ((q, r, true) :: log)%list = (y1 ++ (q', Key c, true) :: y2)%list /\ gives unmarshal (q_f q') c /\ k_expiry cfg (match r with KPanic => s | _ => s' end) = (q_t1 q' + day)%Z /\
                Forall (fun e : entry => snd e = false \/ snd (fst e) = KPanic) y1
    | None => true = true /\ (r = KErr \/ r = KPanic)
    end).
  { intros s' r R _. destruct r as [c| |].
    - apply refresh_key in R as [G ->]. cbn. exists [], q, log. cbn. auto.
    - apply refresh_err in R as [-> _]. cbn. auto.
    - destruct (k_cfg cfg s) as [c|] eqn:E; [|auto]. destruct IH as (y1 & q' & y2 & -> & G & X & F). exists ((q, KPanic, true) :: y1), q', y2. repeat split; auto. }
  destruct (k_cfg cfg s) as [c|] eqn:E.
  - destruct (k_expiry cfg s <? q_t0 q)%Z.
    + destruct (refreshTargetKey cfg unmarshal (q_f q) (q_t1 q)) as [s' r]. cbn [fst snd]. apply Ask; eauto.
    + cbn [fst snd]. rewrite E. destruct IH as (y1 & q' & y2 & -> & G & X & F). exists ((q, Key c, false) :: y1), q', y2. repeat split; auto.
  - destruct (refreshTargetKey cfg unmarshal (q_f q) (q_t1 q)) as [s' r]. cbn [fst snd]. apply Ask; eauto.
Qed.
Lemma fresh qs s log x q c a y : runs "" qs = (s, log) -> log = (x ++ (q, Key c, a) :: y)%list ->
  if a then gives unmarshal (q_f q) c
  else exists y1 q' y2, y = (y1 ++ (q', Key c, true) :: y2)%list /\ gives unmarshal (q_f q') c /\ (q_t0 q <= q_t1 q' + 86400)%Z /\
    Forall (fun e : entry => snd e = false \/ snd (fst e) = KPanic) y1.
Proof.
  intros H ->. apply runs_suffix in H as (qs1 & s1 & H). apply runs_head in H as (qs2 & s2 & _ & H & G). pose proof (kinv_ok qs2) as I. rewrite H in I. unfold kinv in I. cbn [fst snd] in I.
  unfold getTargetConfig in G. cbn [String.eqb negb] in G. destruct (k_cfg cfg s2) as [c2|] eqn:E.
  - destruct (Z.ltb_spec (k_expiry cfg s2) (q_t0 q)) as [L|L].
    + destruct (refreshTargetKey cfg unmarshal (q_f q) (q_t1 q)) as [s' r] eqn:R. injection G as _ Gr <-. subst r. apply refresh_key in R. tauto.
    + injection G as _ <- <-. destruct I as (y1 & q' & y2 & -> & G & X & F). exists y1, q', y2. unfold day in X. repeat split; auto. lia.
  - destruct (refreshTargetKey cfg unmarshal (q_f q) (q_t1 q)) as [s' r] eqn:R. injection G as _ Gr <-. subst r. apply refresh_key in R. tauto.
Qed.
Lemma state_after qs s q' c y1 y2 : runs "" qs = (s, (y1 ++ (q', Key c, true) :: y2)%list) -> Forall (fun e : entry => (q_t0 (fst (fst e)) <= q_t1 q' + 86400)%Z) y1 ->
  k_cfg cfg s = Some c /\ k_expiry cfg s = (q_t1 q' + day)%Z /\ Forall (fun e : entry => e = (fst (fst e), Key c, false)) y1.
Proof.
  revert qs s. induction y1 as [|[[q r] a] y1 IH]; intros qs s H F.
  - cbn [app] in H. apply runs_head in H as (qs2 & s2 & _ & _ & G). unfold getTargetConfig in G. cbn [String.eqb negb] in G.
    assert (X : refreshTargetKey cfg unmarshal (q_f q') (q_t1 q') = (s, Key c)).
    { destruct (refreshTargetKey cfg unmarshal (q_f q') (q_t1 q')) as [s' r'] eqn:R. destruct (k_cfg cfg s2) as [c2|]; [destruct (_ <? _)%Z|]; [|discriminate|].
      - injection G as G1 G2. subst r'. congruence.
      - injection G as G1 G2. subst r'. congruence. }
    apply refresh_key in X as [_ ->]. cbn. auto.
  - cbn [app] in H. apply runs_head in H as (qs2 & s2 & _ & H & G). inversion F as [|? ? F1 F2]; subst. cbn [fst] in F1.
    destruct (IH _ _ H F2) as (A & B & C). unfold getTargetConfig in G. cbn [String.eqb negb] in G. rewrite A in G.
    destruct (Z.ltb_spec (k_expiry cfg s2) (q_t0 q)) as [L|L]; [unfold day in B; lia|]. injection G as <- <- <-. split; [exact A|]. split; [exact B|]. constructor; auto.
Qed.
Lemma kept qs s log x q r a y1 q' c y2 : runs "" qs = (s, log) -> log = (x ++ (q, r, a) :: y1 ++ (q', Key c, true) :: y2)%list ->
  (q_t0 q <= q_t1 q' + 86400)%Z -> Forall (fun e : entry => (q_t0 (fst (fst e)) <= q_t1 q' + 86400)%Z) y1 -> r = Key c /\ a = false.
Proof.
  intros H -> T F. apply runs_suffix in H as (qs1 & s1 & H). change ((q, r, a) :: y1 ++ (q', Key c, true) :: y2)%list with (((q, r, a) :: y1) ++ (q', Key c, true) :: y2)%list in H.
  apply state_after in H as (_ & _ & C); [|constructor; auto]. inversion C as [|? ? E _]; subst. injection E as -> ->. auto.
Qed.
Lemma failed qs s log q r a x y : runs "" qs = (s, log) -> log = (x ++ (q, r, a) :: y)%list -> (forall c, r <> Key c) ->
  a = true /\ (forall c, ~ gives unmarshal (q_f q) c) /\ (r = KErr -> forall x' e, x = (x' ++ [e])%list -> snd e = true).
Proof.
  intros H -> N. assert (H0 := H). apply runs_suffix in H as (qs1 & s1 & H). apply runs_head in H as (qs2 & s2 & _ & H & G). unfold getTargetConfig in G. cbn [String.eqb negb] in G.
  assert (X : exists s', refreshTargetKey cfg unmarshal (q_f q) (q_t1 q) = (s', r) /\ a = true /\ s1 = match r with KPanic => s2 | _ => s' end).
  { destruct (refreshTargetKey cfg unmarshal (q_f q) (q_t1 q)) as [s' r'] eqn:R. destruct (k_cfg cfg s2) as [c2|]; [destruct (_ <? _)%Z|].
    - injection G as <- <- <-. eauto.
    - injection G as _ G _. symmetry in G. destruct (N _ G).
    - injection G as <- <- <-. eauto. }
  destruct X as (s' & R & -> & S). split; [reflexivity|]. split.
  - intros c Gc. assert (X : refreshTargetKey cfg unmarshal (q_f q) (q_t1 q) = (KState cfg (Some c) (q_t1 q + day), Key c)) by (apply refresh_key; auto). rewrite R in X. injection X as _ X. exact (N _ X).
  - intros -> x' [[q2 r2] a2] ->. rewrite <- app_assoc in H0. cbn [app] in H0. apply runs_suffix in H0 as (qs3 & s3 & H3).
    apply runs_head in H3 as (qs4 & s4 & _ & H4 & G4). apply runs_head in H4 as (qs5 & s5 & _ & H5 & G5). rewrite H in H5 || idtac.
    apply refresh_err in R as [-> _]. unfold getTargetConfig in G5. cbn [String.eqb negb] in G5. clear - G4 G5.
    assert (k_cfg cfg s4 = None).
    { destruct (refreshTargetKey cfg unmarshal (q_f q) (q_t1 q)) as [s' r'] eqn:R. destruct (k_cfg cfg s5) as [c2|]; [destruct (_ <? _)%Z|]; [|discriminate|].
      - injection G5 as G1 G2. subst r'. apply refresh_err in R as [-> _]. now subst.
      - injection G5 as G1 G2. subst r'. apply refresh_err in R as [-> _]. now subst. }
    unfold getTargetConfig in G4. cbn [String.eqb negb] in G4. rewrite H in G4. destruct (refreshTargetKey cfg unmarshal (q_f q2) (q_t1 q2)). cbn [snd]. congruence.
Qed.
Lemma refresh_panic f t : snd (refreshTargetKey cfg unmarshal f t) = KPanic <-> brings_none unmarshal f.
Proof.
  unfold refreshTargetKey, brings_none. destruct f as [r|]; [|split; [discriminate|intros (? & ? & _); discriminate]].
  assert (B : forall b, readBoundedBody maxDoHResponseSize (hr_body r) (hr_broken r) = Some b <-> b = hr_body r /\ hr_broken r = false /\ (length (hr_body r) <= N.to_nat 66047)%nat).
  { intros b. rewrite bounded_iff. unfold maxDoHResponseSize. change (65535 + 512)%N with 66047%N. split; [|tauto]. intros [|(-> & _ & H1 & H2)]; [assumption|]. rewrite firstn_length in H2. lia. }
  destruct (readBoundedBody maxDoHResponseSize (hr_body r) (hr_broken r)) as [b|] eqn:E.
  - destruct (proj1 (B b) eq_refl) as (-> & E1 & E2). destruct (unmarshal (hr_body r)) as [[|c' cs]|] eqn:U; (split; [try discriminate|intros (r' & [= <-] & _ & _ & H); first [reflexivity|congruence]]).
    intros _. exists r. auto.
  - split; [discriminate|]. intros (r' & [= <-] & H1 & H2 & _). assert (X := proj2 (B (hr_body r)) (conj eq_refl (conj H1 H2))). discriminate.
Qed.
Lemma panics qs s log q r a : runs "" qs = (s, log) -> In (q, r, a) log -> (r = KPanic <-> a = true /\ brings_none unmarshal (q_f q)).
Proof.
  intros H I. apply in_split in I as (x & y & ->). apply runs_suffix in H as (qs1 & s1 & H). apply runs_head in H as (qs2 & s2 & _ & _ & G). unfold getTargetConfig in G. cbn [String.eqb negb] in G.
  rewrite <- (refresh_panic (q_f q) (q_t1 q)). destruct (refreshTargetKey cfg unmarshal (q_f q) (q_t1 q)) as [s' r'] eqn:R. cbn [snd].
  destruct (k_cfg cfg s2) as [c2|]; [destruct (_ <? _)%Z|]; injection G as _ <- <-; intuition (auto; discriminate).
Qed.
End Key.
