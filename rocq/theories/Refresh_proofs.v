(** The invariant of refresh loops and queries *)
From Verif Require Import Base Refresh_model Refresh_spec.
From Coq Require Import Permutation.

Definition owned (p : rpc) : list db := match p with Sleep => [] | Loaded d | Locked d | Assigned d | Unlocked d => [d] end.
Section INV.
Variable c : config.
Hypothesis ok : snap c = true -> closes c = false.
Variable cur0 : list db.

Definition begun (i : nat) (lg b1 b2 : list event) : Prop := lg = b1 ++ Begin i :: b2 /\ ~ In (Begin i) b1.
Definition query_ok (cur : list db) (lg : list event) (i : nat) (q : qpc) : Prop :=
  match q with
  | Start => ~ In (Begin i) lg
  | InLock ds => ds = firstn (length ds) cur /\ exists b1 b2, begun i lg b1 b2 /\ forall e, In e b1 -> ~ is_install e
  | Snapped ds => exists b1 b2, begun i lg b1 b2 /\ ds = installed cur0 b2
  | Finished => True
  end.
Definition match_ok (i : nat) (ds : list db) (b : list event) : Prop :=
  exists b1 b2, begun i b b1 b2 /\ ds = installed cur0 b2 /\ (snap c = false -> forall e, In e b1 -> ~ is_install e).
Record inv (s : sys) : Prop := {
  i_len : length (s_cur s) = length (s_loops s);
  i_mutex : forall p1 p p2, s_loops s = p1 ++ p :: p2 -> writing p -> Forall (fun q => ~ reading q) (s_queries s) /\ Forall (fun p => ~ writing p) (p1 ++ p2);
  i_nodup : NoDup (s_cur s ++ flat_map owned (s_loops s) ++ s_closed s);
  i_fresh : forall d, In d (s_cur s ++ flat_map owned (s_loops s) ++ s_closed s) -> d < s_next s;
  i_snap : snap c = true -> s_closed s = [];
  i_cur : s_cur s = installed cur0 (s_log s);
  i_query : forall i q, nth_error (s_queries s) i = Some q -> query_ok (s_cur s) (s_log s) i q;
  i_match : forall a i ds b, s_log s = a ++ Match i ds :: b -> match_ok i ds b }.

Lemma nth_mid {A} (l1 : list A) x l2 : nth_error (l1 ++ x :: l2) (length l1) = Some x.
Proof. rewrite nth_error_app2 by lia. rewrite Nat.sub_diag. reflexivity. Qed.
Lemma nth_mid_other {A} (l1 : list A) x y l2 k : k <> length l1 -> nth_error (l1 ++ x :: l2) k = nth_error (l1 ++ y :: l2) k.
Proof.
  intros H. destruct (Nat.lt_ge_cases k (length l1)) as [L|L]; [rewrite !nth_error_app1 by lia; reflexivity|]. rewrite !nth_error_app2 by lia. destruct (k - length l1) eqn:E; [lia|reflexivity].
Qed.
Lemma perm_exchange {A} (l m b : list A) x y : Permutation (l ++ x :: m ++ y :: b) (l ++ y :: m ++ x :: b).
Proof. apply Permutation_app_head. rewrite <- !Permutation_middle. apply perm_swap. Qed.
Lemma flat_mid p1 p p2 : flat_map owned (p1 ++ p :: p2) = flat_map owned p1 ++ owned p ++ flat_map owned p2.
Proof. rewrite flat_map_app. reflexivity. Qed.
(** Queries when only the log grows *)
Lemma query_more cur lg e i q : query_ok cur lg i q -> e <> Begin i -> (is_install e -> ~ reading q) -> query_ok cur (e :: lg) i q.
Proof.
  intros H NB NI. destruct q as [|ds|ds|]; cbn in *; [intros [X|X]; [congruence|contradiction]| | |exact I].
  - destruct H as (E & b1 & b2 & (E1 & E2) & E3). split; [exact E|]. exists (e :: b1), b2. split; [split; [cbn; congruence|]|].
    + intros [X|X]; [congruence|contradiction].
    + intros x [<-|X]; [intros Y; exact (NI Y Logic.I)|auto].
  - destruct H as (b1 & b2 & (E1 & E2) & E3). exists (e :: b1), b2. split; [split; [cbn; congruence|]|exact E3]. intros [X|X]; [congruence|contradiction].
Qed.
Lemma query_cur cur cur' lg i q : query_ok cur lg i q -> ~ reading q -> query_ok cur' lg i q.
Proof. destruct q; cbn; tauto. Qed.
Lemma installed_skip b1 b2 l i : (forall e, In e b1 -> ~ is_install e) -> installed l (b1 ++ Begin i :: b2) = installed l b2.
Proof. induction b1 as [|e b1 IH]; intros H; [reflexivity|]. cbn. destruct e as [j d|j|j ds]; [destruct (H (Install j d) (or_introl eq_refl)); exists j, d; reflexivity| |]; apply IH; intros x X; apply H; right; exact X. Qed.
Lemma match_cons s e : inv s -> (forall i ds, e <> Match i ds) -> forall a i ds b, e :: s_log s = a ++ Match i ds :: b -> match_ok i ds b.
Proof. intros I N [|x a] i ds b E; [injection E as E _; destruct (N _ _ E)|]. injection E as _ E. exact (i_match _ I a i ds b E). Qed.
Lemma put_mid {A} (c1 : list A) old c2 d : put (length c1) d (c1 ++ old :: c2) = c1 ++ d :: c2.
Proof. induction c1 as [|x c1 IH]; cbn; [reflexivity|rewrite IH; reflexivity]. Qed.
Lemma not_writing p : ~ writing p -> forall p1 p2, Forall (fun p => ~ writing p) (p1 ++ p2) -> forall a x b, p1 ++ p :: p2 = a ++ x :: b -> ~ writing x.
Proof.
  intros N p1 p2 F a x b E. assert (I : In x (p1 ++ p :: p2)) by (rewrite E; apply in_or_app; right; left; reflexivity). apply in_app_or in I. rewrite Forall_forall in F. destruct I as [I|[<-|I]]; [apply F, in_or_app; auto|exact N|apply F, in_or_app; auto].
Qed.
(** A loop changes its state without starting to write *)
Lemma mutex_change cur n cl p1 p p' p2 qs lg : inv (Sys cur n cl (p1 ++ p :: p2) qs lg) -> (writing p' -> writing p) ->
  forall a x b, p1 ++ p' :: p2 = a ++ x :: b -> writing x -> Forall (fun q => ~ reading q) qs /\ Forall (fun p => ~ writing p) (a ++ b).
Proof.
  intros I W a x b E WX. pose proof (i_mutex _ I) as M. cbn [s_loops s_queries] in M.
  assert (L := f_equal (fun l => nth_error l (length a)) E). cbn in L. rewrite nth_mid in L.
  destruct (Nat.eq_dec (length a) (length p1)) as [EQ|NE].
  - rewrite EQ, nth_mid in L. injection L as ->. destruct (M p1 p p2 eq_refl (W WX)) as [A B]. split; [exact A|]. assert (a = p1 /\ b = p2) as [-> ->]; [|exact B].
    clear -E EQ. revert p1 E EQ. induction a as [|y a IH]; intros [|z p1] E EQ; try discriminate EQ; cbn in E; [injection E; auto|]. injection E as -> E. injection EQ as EQ. destruct (IH p1 E EQ) as [-> ->]. auto.
  - rewrite (nth_mid_other _ p' p) in L by exact NE. apply nth_error_split in L. destruct L as (a' & b' & L1 & L2). destruct (M a' x b' L1 WX) as [A B]. split; [exact A|].
    assert (NP : ~ writing p). { assert (I2 : In p (a' ++ b')).
      { assert (X : nth_error (a' ++ x :: b') (length p1) = Some p) by (rewrite <- L1; apply nth_mid). destruct (Nat.lt_ge_cases (length p1) (length a')) as [Y|Y]; [rewrite nth_error_app1 in X by lia; apply in_or_app; left; eapply nth_error_In, X|].
        rewrite nth_error_app2 in X by lia. destruct (length p1 - length a') eqn:Z; [lia|]. apply in_or_app; right; eapply nth_error_In; exact X. }
      rewrite Forall_forall in B. apply B, I2. }
    apply Forall_forall. intros y Y WY. (* y occurs in the new list at another position *)
    assert (Y' : exists k, k <> length a /\ nth_error (a ++ x :: b) k = Some y).
    { apply in_app_or in Y. destruct Y as [Y|Y]; apply In_nth_error in Y; destruct Y as (k & Y).
      - exists k. assert (k < length a) by (apply nth_error_Some; congruence). split; [lia|]. rewrite nth_error_app1 by lia. exact Y.
      - exists (S (length a + k)). split; [lia|]. rewrite nth_error_app2 by lia. replace (S (length a + k) - length a) with (S k) by lia. exact Y. }
    destruct Y' as (k & NK & YK). rewrite <- E in YK. destruct (Nat.eq_dec k (length p1)) as [->|NP1]; [rewrite nth_mid in YK; injection YK as <-; apply NP, W, WY|].
    rewrite (nth_mid_other _ p' p) in YK by exact NP1. rewrite L1 in YK. rewrite Forall_forall in B. apply (B y); [|exact WY].
    destruct (Nat.lt_ge_cases k (length a')) as [Z|Z]; [rewrite nth_error_app1 in YK by lia; apply in_or_app; left; eapply nth_error_In, YK|].
    rewrite nth_error_app2 in YK by lia. destruct (k - length a') eqn:ZZ; [lia|]. apply in_or_app; right; eapply nth_error_In; exact YK.
Qed.
(** The queries when one of them changes *)
Lemma query_change cur lg q1 q q' q2 : (forall i x, nth_error (q1 ++ q :: q2) i = Some x -> query_ok cur lg i x) -> query_ok cur lg (length q1) q' ->
  forall i x, nth_error (q1 ++ q' :: q2) i = Some x -> query_ok cur lg i x.
Proof. intros H Q i x E. destruct (Nat.eq_dec i (length q1)) as [->|NE]; [rewrite nth_mid in E; injection E as <-; exact Q|]. rewrite (nth_mid_other _ q' q) in E by exact NE. exact (H i x E). Qed.
Lemma not_reading_change q1 q q' q2 : Forall (fun q => ~ reading q) (q1 ++ q :: q2) -> ~ reading q' -> Forall (fun q => ~ reading q) (q1 ++ q' :: q2).
Proof. intros H N. apply Forall_app in H. destruct H as [A B]. inversion B; subst. apply Forall_app. split; [exact A|]. constructor; assumption. Qed.
Lemma step_inv s s' : step c s s' -> inv s -> inv s'.
Proof.
  intros H I. destruct H as [s|cur n cl ps qs lg LK|cur n cl p1 p2 qs lg|cur n cl p1 d p2 qs lg F1 F2|c1 old c2 n cl p1 d p2 qs lg EL|cur n cl p1 old p2 qs lg|cur n cl p1 old p2 qs lg|cur n cl ps q1 q2 lg F|cur n cl ps q1 ds d q2 lg E|cur n cl ps q1 ds q2 lg S E|cur n cl ps q1 ds q2 lg S|cur n cl ps q1 ds q2 lg S E].
  - exact I.
  - constructor; cbn [s_cur s_next s_closed s_loops s_queries s_log]; try apply I. intros d X. pose proof (i_fresh _ I d X) as FR. cbn in FR. lia.
  - constructor; cbn [s_cur s_next s_closed s_loops s_queries s_log]; try apply I.
    + pose proof (i_len _ I) as L. cbn in L. rewrite !app_length in *. exact L.
    + apply (mutex_change _ _ _ _ _ _ _ _ _ I). intros [].
    + pose proof (i_nodup _ I) as N. pose proof (i_fresh _ I) as FR. cbn in N, FR. rewrite flat_mid in *. cbn [owned app] in *. rewrite <- !app_assoc in *. cbn [app] in *.
      apply (Permutation_NoDup (l := n :: cur ++ flat_map owned p1 ++ flat_map owned p2 ++ cl)); [rewrite (app_assoc cur), (app_assoc cur); apply Permutation_middle|]. constructor; [|exact N]. intros X; specialize (FR n X); lia.
    + intros d. pose proof (i_fresh _ I d) as FR. cbn in FR. rewrite flat_mid in *. cbn [owned app] in *. rewrite !in_app_iff in *. cbn [In]. intros X. destruct (Nat.eq_dec d n) as [->|NE]; [lia|]. assert (d < n); [|lia]. apply FR. intuition congruence.
  - constructor; cbn [s_cur s_next s_closed s_loops s_queries s_log]; try apply I.
    + pose proof (i_len _ I) as L. cbn in L. rewrite !app_length in *. exact L.
    + intros a x b E WX. split; [exact F2|]. assert (FP : Forall (fun p => ~ writing p) (p1 ++ p2)) by (apply Forall_app in F1; destruct F1 as [A B]; inversion B; apply Forall_app; auto).
      assert (L := f_equal (fun l => nth_error l (length a)) E). cbn in L. rewrite nth_mid in L. destruct (Nat.eq_dec (length a) (length p1)) as [EQ|NE].
      * assert (a = p1 /\ b = p2) as [-> ->]; [|exact FP]. clear -E EQ. revert p1 E EQ. induction a as [|y a IH]; intros [|z p1] E EQ; try discriminate EQ; cbn in E; [injection E; auto|]. injection E as -> E. injection EQ as EQ. destruct (IH p1 E EQ) as [-> ->]. auto.
      * rewrite (nth_mid_other _ (Locked d) (Loaded d)) in L by exact NE. apply nth_error_In in L. rewrite Forall_forall in F1. destruct (F1 x L WX).
    + pose proof (i_nodup _ I) as N. cbn in N. rewrite flat_mid in *. exact N.
    + intros x. pose proof (i_fresh _ I x) as FR. cbn in FR. rewrite flat_mid in *. exact FR.
  - destruct (i_mutex _ I p1 (Locked d) p2 eq_refl Logic.I) as [NR NW]. cbn in NR. constructor; cbn [s_cur s_next s_closed s_loops s_queries s_log].
    + pose proof (i_len _ I) as L. cbn in L. rewrite !app_length in *. cbn in *. exact L.
    + apply (mutex_change _ _ _ _ _ _ _ _ _ I). intros _. exact Logic.I.
    + pose proof (i_nodup _ I) as N. cbn in N. rewrite flat_mid in *. cbn [owned] in *. eapply Permutation_NoDup; [|exact N]. clear. rewrite <- !app_assoc. cbn [app].
      rewrite (app_assoc c2), (app_assoc c2). apply perm_exchange.
    + intros x. pose proof (i_fresh _ I x) as FR. cbn in FR. rewrite flat_mid in *. cbn [owned] in *. repeat (rewrite in_app_iff in * || cbn [In app] in * ). intros X. apply FR. tauto.
    + intros SC. exact (i_snap _ I SC).
    + cbn [installed]. pose proof (i_cur _ I) as CU. cbn in CU. rewrite <- CU, <- EL, put_mid. reflexivity.
    + intros i q E. rewrite Forall_forall in NR. pose proof (NR q (nth_error_In _ _ E)) as NQ. apply query_more; [apply (query_cur (c1 ++ old :: c2)); [exact (i_query _ I i q E)|exact NQ]|discriminate|auto].
    + apply (match_cons _ _ I). discriminate.
  - constructor; cbn [s_cur s_next s_closed s_loops s_queries s_log]; try apply I.
    + pose proof (i_len _ I) as L. cbn in L. rewrite !app_length in *. exact L.
    + apply (mutex_change _ _ _ _ _ _ _ _ _ I). intros [].
    + pose proof (i_nodup _ I) as N. cbn in N. rewrite flat_mid in *. exact N.
    + intros x. pose proof (i_fresh _ I x) as FR. cbn in FR. rewrite flat_mid in *. exact FR.
  - constructor; cbn [s_cur s_next s_closed s_loops s_queries s_log]; try apply I.
    + pose proof (i_len _ I) as L. cbn in L. rewrite !app_length in *. exact L.
    + apply (mutex_change _ _ _ _ _ _ _ _ _ I). intros [].
    + pose proof (i_nodup _ I) as N. cbn in N. rewrite flat_mid in *. cbn [owned app] in *. rewrite <- !app_assoc in *. cbn [app] in *. assert (N' : NoDup (old :: cur ++ flat_map owned p1 ++ flat_map owned p2 ++ cl)).
      { eapply Permutation_NoDup; [|exact N]. rewrite (app_assoc cur), (app_assoc cur). symmetry. apply Permutation_middle. }
      destruct (closes c); [|inversion N'; assumption]. eapply Permutation_NoDup; [|exact N']. rewrite !app_assoc. apply Permutation_middle.
    + intros x. pose proof (i_fresh _ I x) as FR. cbn in FR. rewrite flat_mid in *. cbn [owned app] in *. rewrite !in_app_iff in *. cbn [In] in *. destruct (closes c); cbn [In]; intros X; apply FR; tauto.
    + intros SC. rewrite (ok SC). exact (i_snap _ I SC).
  - constructor; cbn [s_cur s_next s_closed s_loops s_queries s_log]; try apply I.
    + intros a x b E WX. rewrite Forall_forall in F. destruct (F x); [|exact WX]. rewrite E. apply in_or_app. right. left. reflexivity.
    + intros i q E. pose proof (i_query _ I) as Q. cbn in Q. destruct (Nat.eq_dec i (length q1)) as [->|NE].
      * rewrite nth_mid in E. injection E as <-. split; [reflexivity|]. exists [], lg. split; [split; [reflexivity|intros []]|intros e []].
      * rewrite (nth_mid_other _ _ Start) in E by exact NE. apply query_more; [exact (Q i q E)|congruence|intros (j & d & X); discriminate X].
    + apply (match_cons _ _ I). discriminate.
  - constructor; cbn [s_cur s_next s_closed s_loops s_queries s_log]; try apply I.
    + intros a x b EP WX. destruct (i_mutex _ I a x b EP WX) as [A B]. split; [|exact B]. cbn in A. apply Forall_app in A. destruct A as [_ A]. inversion A as [|? ? X]; subst. destruct (X Logic.I).
    + eapply query_change; [exact (i_query _ I)|]. destruct (i_query _ I _ _ (nth_mid _ _ _)) as (E1 & E2). split; [|exact E2]. cbn in E1. rewrite app_length. cbn. rewrite Nat.add_1_r. cbn [s_cur] in *.
      clear -E E1. revert cur E E1. induction ds as [|y ds IH]; intros [|z cur] E E1; try discriminate E; cbn in *; [congruence|]. injection E1 as -> E1. rewrite <- (IH cur E E1). reflexivity.
  - constructor; cbn [s_cur s_next s_closed s_loops s_queries s_log]; try apply I.
    + intros a x b EP WX. destruct (i_mutex _ I a x b EP WX) as [A B]. split; [|exact B]. apply (not_reading_change _ _ _ _ A). intros [].
    + eapply query_change; [exact (i_query _ I)|]. destruct (i_query _ I _ _ (nth_mid _ _ _)) as (E1 & b1 & b2 & (E2 & E3) & E4). cbn in E1, E2. exists b1, b2. split; [split; assumption|]. pose proof (i_cur _ I) as CU. cbn in CU.
      rewrite E2, (installed_skip _ _ _ _ E4) in CU. rewrite <- CU. rewrite E1, E. apply firstn_all.
  - constructor; cbn [s_cur s_next s_closed s_loops s_queries s_log]; try apply I.
    + intros a x b EP WX. destruct (i_mutex _ I a x b EP WX) as [A B]. split; [|exact B]. apply (not_reading_change _ _ _ _ A). intros [].
    + intros i q E. destruct (Nat.eq_dec i (length q1)) as [->|NE]; [rewrite nth_mid in E; injection E as <-; exact Logic.I|]. rewrite (nth_mid_other _ _ (Snapped ds)) in E by exact NE. apply query_more; [exact (i_query _ I i q E)|discriminate|intros (j & d & X); discriminate X].
    + intros [|y a] i ds' b E; [|injection E as _ E; exact (i_match _ I a i ds' b E)]. injection E as <- <- <-. destruct (i_query _ I _ _ (nth_mid _ _ _)) as (b1 & b2 & B & D). exists b1, b2. split; [exact B|]. split; [exact D|]. congruence.
  - constructor; cbn [s_cur s_next s_closed s_loops s_queries s_log]; try apply I.
    + intros a x b EP WX. destruct (i_mutex _ I a x b EP WX) as [A B]. split; [|exact B]. apply (not_reading_change _ _ _ _ A). intros [].
    + intros i q EQ. destruct (Nat.eq_dec i (length q1)) as [->|NE]; [rewrite nth_mid in EQ; injection EQ as <-; exact Logic.I|]. rewrite (nth_mid_other _ _ (InLock ds)) in EQ by exact NE. apply query_more; [exact (i_query _ I i q EQ)|discriminate|intros (j & d & X); discriminate X].
    + intros [|y a] i ds' b E'; [|injection E' as _ E'; exact (i_match _ I a i ds' b E')]. injection E' as <- <- <-. destruct (i_query _ I _ _ (nth_mid _ _ _)) as (E1 & b1 & b2 & (E2 & E3) & E4). exists b1, b2. split; [split; assumption|]. split; [|auto].
      pose proof (i_cur _ I) as CU. cbn in CU, E1, E2. rewrite E2, (installed_skip _ _ _ _ E4) in CU. rewrite <- CU, E1, E. apply firstn_all.
Qed.
Lemma steps_inv s s' : steps c s s' -> inv s -> inv s'.
Proof. induction 1 as [|s s1 s2 _ IH H]; intros I; [exact I|]. apply (step_inv _ _ H), IH, I. Qed.
End INV.
Lemma in_repeat {A} (x y : A) n : In x (repeat y n) -> x = y. Proof. apply repeat_spec. Qed.
Lemma flat_sleep n : flat_map owned (repeat Sleep n) = []. Proof. induction n; cbn; auto. Qed.
Lemma start_inv c k n : inv c (seq 0 k) (start k n).
Proof.
  constructor; cbn.
  - rewrite seq_length, repeat_length. reflexivity.
  - intros p1 p p2 E W. assert (X : In p (repeat Sleep k)) by (rewrite E; apply in_or_app; right; left; reflexivity). apply repeat_spec in X. subst p. destruct W.
  - rewrite flat_sleep, !app_nil_r. apply seq_NoDup.
  - rewrite flat_sleep, !app_nil_r. intros d X. apply in_seq in X. lia.
  - reflexivity.
  - reflexivity.
  - intros i q E. apply nth_error_In in E. apply repeat_spec in E. subst q. intros [].
  - intros a i ds b E. destruct a; discriminate E.
Qed.
Lemma in_firstn {A} (x : A) n l : In x (firstn n l) -> In x l.
Proof. intros H. rewrite <- (firstn_skipn n l). apply in_or_app. left. exact H. Qed.
Lemma never_closed c k n s : (snap c = true -> closes c = false) -> steps c (start k n) s -> forall q d, In q (s_queries s) -> uses q d -> ~ In d (s_closed s).
Proof.
  intros OK S q d IQ U C. pose proof (steps_inv c OK (seq 0 k) _ _ S (start_inv c k n)) as I. apply In_nth_error in IQ. destruct IQ as (i & EQ). pose proof (i_query _ _ _ I i q EQ) as Q. destruct q as [|ds|ds|]; cbn in U, Q; try contradiction.
  - destruct Q as (E & _). assert (IC : In d (s_cur s)) by (rewrite E in U; apply in_firstn in U; exact U). pose proof (i_nodup _ _ _ I) as N. clear -IC C N. induction (s_cur s) as [|x l IH]; [destruct IC|]. cbn in N. inversion N as [|? ? X Y]; subst. destruct IC as [->|IC]; [|auto].
    apply X, in_or_app. right. apply in_or_app. right. exact C.
  - assert (SN : snap c = true \/ snap c = false) by (destruct (snap c); auto). destruct SN as [SN|SN]; [rewrite (i_snap _ _ _ I SN) in C; destruct C|].
    (* without snapshots nobody is in this state *)
    exfalso. clear -S SN EQ. assert (G : forall s0 s, steps c s0 s -> (forall ds, ~ In (Snapped ds) (s_queries s0)) -> forall ds, ~ In (Snapped ds) (s_queries s)).
    { clear -SN. intros s0 s H. induction H as [|s1 s2 s3 _ IH H]; intros N; [exact N|]. specialize (IH N). clear N. intros ds X. destruct H; cbn in *; try (exact (IH ds X)); try congruence;
        (apply in_app_or in X; destruct X as [X|[X|X]]; [apply (IH ds), in_or_app; auto|discriminate X|apply (IH ds), in_or_app; right; right; exact X]). }
    apply (G _ _ S) with (ds := ds); [|eapply nth_error_In, EQ]. intros x X. apply repeat_spec in X. discriminate X.
Qed.
Lemma matches c k n s : (snap c = true -> closes c = false) -> steps c (start k n) s -> forall a i ds b, s_log s = a ++ Match i ds :: b ->
  exists b1 b2, b = b1 ++ Begin i :: b2 /\ ~ In (Begin i) b1 /\ ds = installed (seq 0 k) b2 /\ (snap c = false -> forall e, In e b1 -> ~ is_install e).
Proof. intros OK S a i ds b E. destruct (i_match _ _ _ (steps_inv c OK (seq 0 k) _ _ S (start_inv c k n)) a i ds b E) as (b1 & b2 & (E1 & E2) & E3 & E4). exists b1, b2. auto. Qed.
(** Parts *)
Lemma multi_all {A B} (reload : A -> option B) l r : multi_reload reload l = Some r <-> Forall2 (fun a b => reload a = Some b) l r.
Proof.
  revert r. induction l as [|a l IH]; intros r; cbn.
  - split; [intros [= <-]; constructor|intros H; inversion H; reflexivity].
  - destruct (reload a) as [b|] eqn:E; [|split; [discriminate|intros H; inversion H; subst; congruence]]. destruct (multi_reload reload l) as [r'|]; (split; [intros H|intros H; inversion H as [|? y ? l' E1 E2]; subst; apply IH in E2; congruence]).
    + injection H as <-. constructor; [exact E|]. apply IH. reflexivity.
    + discriminate H.
Qed.
(** Reloads that fail leave files open. *)
Lemma leak c k n m : leaks c = true -> exists s, steps c (start k n) s /\ s_log s = [] /\ s_closed s = [] /\ s_next s = k + m.
Proof.
  intros L. induction m as [|m (s & S & E1 & E2 & E3)]; [exists (start k n); repeat split; [apply steps_refl|cbn; lia]|]. destruct s as [cur nx cl ps qs lg]. cbn in *. eexists. split; [eapply steps_step; [exact S|apply r_leak, L]|]. cbn. repeat split; auto. lia.
Qed.
