(** Refreshes and queries do not block each other: both can be completed from every state that is reached. *)
From Verif Require Import Base Refresh_model Refresh_spec Refresh_proofs.
Local Open Scope nat_scope.

Definition rleft (p : rpc) : nat := match p with Sleep => 0 | Unlocked _ => 1 | Assigned _ => 2 | Locked _ => 3 | Loaded _ => 4 end.
Definition qleft (k : nat) (q : qpc) : nat := match q with Finished => 0 | Snapped _ => 1 | InLock ds => 2 + (k - length ds) | Start => 3 + k end.
Definition todo (s : sys) : nat := list_sum (map rleft (s_loops s)) + list_sum (map (qleft (length (s_cur s))) (s_queries s)).

Lemma sum_mid {A} (f : A -> nat) l1 x l2 : list_sum (map f (l1 ++ x :: l2)) = list_sum (map f l1) + f x + list_sum (map f l2).
Proof. rewrite map_app, list_sum_app. cbn [map]. change (list_sum (f x :: map f l2)) with (f x + list_sum (map f l2)). lia. Qed.
Lemma find_split {A} (P : A -> Prop) (dec : forall x, {P x} + {~ P x}) l : Forall (fun x => ~ P x) l \/ exists l1 x l2, l = l1 ++ x :: l2 /\ P x.
Proof.
  induction l as [|x l [IH|(l1 & y & l2 & -> & H)]]; [left; constructor| |right; exists (x :: l1), y, l2; auto].
  destruct (dec x) as [D|D]; [right; exists [], x, l; auto|left; constructor; auto].
Qed.
Lemma writing_dec p : {writing p} + {~ writing p}.
Proof. destruct p; cbn; auto. Qed.
Lemma finished_dec q : {q <> Finished} + {~ q <> Finished}.
Proof. destruct q; try (left; discriminate); right; intros H; apply H; reflexivity. Qed.
Lemma sleep_dec p : {p <> Sleep} + {~ p <> Sleep}.
Proof. destruct p; try (left; discriminate); right; intros H; apply H; reflexivity. Qed.

Section Progress.
Variable c : config.
Definition snap_ok (s : sys) : Prop := forall ds, In (Snapped ds) (s_queries s) -> snap c = true.
Lemma snap_step s s' : step c s s' -> snap_ok s -> snap_ok s'.
Proof.
  intros H N ds X. destruct H; cbn in *; try assumption; try (exact (N ds X));
    (apply in_app_or in X; destruct X as [X|[X|X]]; [apply (N ds), in_or_app; auto|discriminate X|apply (N ds), in_or_app; right; right; exact X]).
Qed.
Lemma one_more cur0 s : inv c cur0 s -> snap_ok s -> (Forall (eq Finished) (s_queries s) /\ Forall (eq Sleep) (s_loops s)) \/ exists s', step c s s' /\ todo s' < todo s.
Proof.
  intros I SN. destruct s as [cur n cl ps qs lg]; cbn [s_queries s_loops] in *.
  destruct (find_split _ writing_dec ps) as [NW|(p1 & p & p2 & -> & W)].
  2:{ right. destruct p; try (destruct W).
      - pose proof (i_len _ _ _ I) as L; cbn in L. rewrite app_length in L; cbn in L.
        destruct (nth_error cur (length p1)) as [old|] eqn:E; [|apply nth_error_None in E; lia].
        apply nth_error_split in E; destruct E as (c1 & c2 & -> & E).
        eexists; split; [apply r_swap; exact E|]. unfold todo; cbn [s_loops s_queries s_cur]. rewrite !sum_mid, !app_length; cbn [rleft length]; lia.
      - eexists; split; [apply r_unlock|]. unfold todo; cbn [s_loops s_queries s_cur]. rewrite !sum_mid; cbn [rleft qleft]; lia. }
  destruct (find_split _ finished_dec qs) as [NQ|(q1 & q & q2 & -> & Q)].
  2:{ right. destruct q as [|ds|ds|]; [| | |destruct Q; reflexivity].
      - eexists; split; [apply q_lock; exact NW|]. unfold todo; cbn [s_loops s_queries s_cur]. rewrite !sum_mid; cbn [rleft qleft]; lia.
      - pose proof (i_query _ _ _ I (length q1) (InLock ds)) as K; cbn in K. rewrite nth_mid in K. destruct (K eq_refl) as (E & _).
        assert (L : length ds <= length cur) by (rewrite E, firstn_length; lia).
        destruct (nth_error cur (length ds)) as [d|] eqn:D.
        + eexists; split; [apply q_read; exact D|]. assert (length ds < length cur) by (apply nth_error_Some; congruence).
          unfold todo; cbn [s_loops s_queries s_cur]. rewrite !sum_mid; cbn [rleft qleft]. rewrite app_length; cbn [length]. lia.
        + apply nth_error_None in D. assert (L' : length ds = length cur) by lia.
          destruct (snap c) eqn:SC.
          * eexists; split; [apply q_snap; [exact SC|exact L']|]. unfold todo; cbn [s_loops s_queries s_cur]. rewrite !sum_mid; cbn [rleft qleft]; lia.
          * eexists; split; [apply q_match_locked; [exact SC|exact L']|]. unfold todo; cbn [s_loops s_queries s_cur]. rewrite !sum_mid; cbn [rleft qleft]; lia.
      - eexists; split; [apply q_match, (SN ds), in_elt|]. unfold todo; cbn [s_loops s_queries s_cur]. rewrite !sum_mid; cbn [rleft qleft]; lia. }
  assert (FQ : Forall (eq Finished) qs) by (eapply Forall_impl; [|exact NQ]; intros [| | |] H; try reflexivity; exfalso; apply H; discriminate).
  destruct (find_split _ sleep_dec ps) as [NP|(p1 & p & p2 & -> & P)].
  2:{ right. destruct p as [|d|d|d|d].
      - destruct P; reflexivity.
      - eexists; split; [apply r_lock; [exact NW|eapply Forall_impl; [|exact FQ]; intros a <-; intros []]|]. unfold todo; cbn [s_loops s_queries s_cur]. rewrite !sum_mid; cbn [rleft qleft]; lia.
      - rewrite Forall_forall in NW. destruct (NW (Locked d) (in_elt _ _ _)). exact Logic.I.
      - rewrite Forall_forall in NW. destruct (NW (Assigned d) (in_elt _ _ _)). exact Logic.I.
      - eexists; split; [apply r_close|]. unfold todo; cbn [s_loops s_queries s_cur]. rewrite !sum_mid; cbn [rleft qleft]; lia. }
  left; split; [exact FQ|]. eapply Forall_impl; [|exact NP]; intros [| | | |] H; try reflexivity; exfalso; apply H; discriminate.
Qed.
Lemma steps_cons s s' s'' : step c s s' -> steps c s' s'' -> steps c s s''.
Proof. intros H S. induction S as [|x y z _ IH S2]; [eapply steps_step; [apply steps_refl|exact H]|]. eapply steps_step; [apply IH, H|exact S2]. Qed.
Hypothesis ok : snap c = true -> closes c = false.
Lemma completes cur0 : forall m s, todo s < m -> inv c cur0 s -> snap_ok s -> exists s', steps c s s' /\ Forall (eq Finished) (s_queries s') /\ Forall (eq Sleep) (s_loops s').
Proof.
  induction m as [|m IH]; intros s L I SN; [lia|]. destruct (one_more cur0 s I SN) as [[A B]|(s1 & S & D)].
  - exists s; split; [apply steps_refl|auto].
  - destruct (IH s1 ltac:(lia) (step_inv c ok cur0 s s1 S I) (snap_step s s1 S SN)) as (s' & A & B). exists s'; split; [eapply steps_cons; [exact S|exact A]|exact B].
Qed.
(** What happened to a query, and to a database that was loaded *)
Definition answered (s : sys) : Prop := forall i, nth_error (s_queries s) i = Some Finished -> exists ds, In (Match i ds) (s_log s).
Definition pending (s : sys) (j : nat) (d : db) : Prop := nth_error (s_loops s) j = Some (Loaded d) \/ nth_error (s_loops s) j = Some (Locked d) \/ In (Install j d) (s_log s).
Lemma mid_cases {A} (l1 : list A) x y l2 i z : nth_error (l1 ++ y :: l2) i = Some z -> i = length l1 /\ z = y \/ i <> length l1 /\ nth_error (l1 ++ x :: l2) i = Some z.
Proof.
  intros E. destruct (Nat.eq_dec i (length l1)) as [->|N]; [left; rewrite nth_mid in E; injection E as ->; auto|right; split; [exact N|]]. rewrite (nth_mid_other _ x y) by exact N. exact E.
Qed.
Lemma answered_step s s' : step c s s' -> answered s -> answered s'.
Proof.
  intros H N i X. destruct H; cbn in *; try (exact (N i X)).
  all: try (destruct (N i X) as [ds0 Y]; exists ds0; right; exact Y).
  - destruct (mid_cases q1 Start _ q2 i _ X) as [[_ Z]|[_ Z]]; [discriminate Z|]. destruct (N i Z) as [ds0 Y]; exists ds0; right; exact Y.
  - destruct (mid_cases q1 (InLock ds) _ q2 i _ X) as [[_ Z]|[_ Z]]; [discriminate Z|]. exact (N i Z).
  - destruct (mid_cases q1 (InLock ds) _ q2 i _ X) as [[_ Z]|[_ Z]]; [discriminate Z|]. exact (N i Z).
  - destruct (mid_cases q1 (Snapped ds) _ q2 i _ X) as [[-> _]|[_ Z]]; [exists ds; left; reflexivity|]. destruct (N i Z) as [ds0 Y]; exists ds0; right; exact Y.
  - destruct (mid_cases q1 (InLock ds) _ q2 i _ X) as [[-> _]|[_ Z]]; [exists ds; left; reflexivity|]. destruct (N i Z) as [ds0 Y]; exists ds0; right; exact Y.
Qed.
Lemma change_mid {A} (l1 : list A) x y l2 i z : nth_error (l1 ++ x :: l2) i = Some z -> i = length l1 /\ z = x \/ nth_error (l1 ++ y :: l2) i = Some z.
Proof. intros E. destruct (mid_cases l1 y x l2 i z E) as [?|[_ ?]]; auto. Qed.
Lemma pending_step s s' j d : step c s s' -> pending s j d -> pending s' j d.
Proof.
  unfold pending. intros H X. destruct H; cbn in *; try (exact X); try (destruct X as [X|[X|X]]; auto; fail).
  all: destruct X as [X|[X|X]]; [| |auto].
  all: match goal with |- context [nth_error (?l1 ++ ?y :: ?l2) ?jj] => destruct (change_mid l1 _ y l2 jj _ X) as [[-> Z]|Z] end; auto; try discriminate Z.
  - injection Z as <-. right; left. apply nth_mid.
  - injection Z as <-. right; right. left. reflexivity.
Qed.
Lemma complete k n s : steps c (start k n) s -> exists s', steps c s s' /\ Forall (eq Finished) (s_queries s') /\ Forall (eq Sleep) (s_loops s') /\
  (forall i, i < length (s_queries s') -> exists ds, In (Match i ds) (s_log s')) /\ (forall j d, nth_error (s_loops s) j = Some (Loaded d) -> In (Install j d) (s_log s')).
Proof.
  intros S. assert (I := steps_inv c ok (seq 0 k) _ _ S (start_inv c k n)).
  assert (G : snap_ok s /\ answered s).
  { clear I. remember (start k n) as s0 eqn:E. induction S as [|s0 s1 s2 S IH H].
    - subst; split; [intros ds X; apply repeat_spec in X; discriminate X|]. intros i X. apply nth_error_In, repeat_spec in X. discriminate X.
    - destruct (IH E); split; [eapply snap_step; eauto|eapply answered_step; eauto]. }
  destruct G as [SN AN]. destruct (completes (seq 0 k) (1 + todo s) s ltac:(lia) I SN) as (s' & A & B & C).
  exists s'; split; [exact A|split; [exact B|split; [exact C|split]]].
  - assert (AN' : answered s') by (clear -A AN; induction A as [|s0 s1 s2 S IH H]; [exact AN|eapply answered_step; eauto]).
    intros i L. apply AN'. destruct (nth_error (s_queries s') i) as [q|] eqn:E; [|apply nth_error_None in E; lia]. rewrite Forall_forall in B. rewrite <- (B q (nth_error_In _ _ E)). reflexivity.
  - intros j d E. assert (P : pending s' j d).
    { assert (P0 : pending s j d) by (left; exact E). clear -A P0. induction A as [|s0 s1 s2 S IH H]; [exact P0|eapply pending_step; eauto]. }
    rewrite Forall_forall in C. destruct P as [P|[P|P]]; [| |exact P]; apply nth_error_In, C in P; discriminate P.
Qed.
End Progress.
