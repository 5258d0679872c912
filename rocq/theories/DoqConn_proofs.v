From Coq Require Import ZArith Lia.
From Verif Require Import Base DoqConn_model DoqConn_spec.
Local Open Scope nat_scope.

Lemma nth_put {A} (l : list A) i x p j : nth_error l i = Some p -> nth_error (put i x l) j = if i =? j then Some x else nth_error l j.
Proof. revert i j; induction l as [|y l IH]; intros [|i] [|j] H; try discriminate; cbn in *; auto. Qed.
Lemma len_put {A} (l : list A) i x : length (put i x l) = length l.
Proof. revert i; induction l as [|y l IH]; intros [|i]; cbn; auto. Qed.
Lemma nth_new {A} (l : list A) x j p : nth_error (l ++ [x]) j = Some p -> nth_error l j = Some p \/ (p = x /\ j = length l).
Proof.
  intros H. destruct (Nat.lt_ge_cases j (length l)).
  - rewrite nth_error_app1 in H; auto.
  - rewrite nth_error_app2 in H by auto. destruct (j - length l) as [|k] eqn:E; cbn in H; [right; split; [congruence|lia]|destruct k; discriminate].
Qed.
Lemma nth_old {A} (l : list A) x j p : nth_error l j = Some p -> nth_error (l ++ [x]) j = Some p.
Proof. intros H. rewrite nth_error_app1; auto. apply nth_error_Some; congruence. Qed.
Lemma nth_last {A} (l : list A) x : nth_error (l ++ [x]) (length l) = Some x.
Proof. rewrite nth_error_app2, Nat.sub_diag; auto. Qed.

(** What has to hold for a query at its place *)
Definition place (s : st) (b : bool) (p : pc) : Prop :=
  match p with
  | Dialing false => cur s = None
  | Dialing true => forall c, ~ live s c
  | Awaiting _ => exists c x, cur s = Some c /\ nth_error (conns s) c = Some x
  | Opening _ => exists c x, cur s = Some c /\ nth_error (conns s) c = Some x /\ (b = true \/ complete x = true \/ alive x = false)
  | Streaming c => exists x, nth_error (conns s) c = Some x /\ (b = true \/ complete x = true)
  | _ => True
  end.
Record inv (s : st) : Prop := Inv {
  i_live : forall c, live s c -> cur s = Some c;
  i_lock : forall i q, nth_error (queries s) i = Some q -> inside (at_ q) -> lock s = Some i;
  i_held : forall i, lock s = Some i -> exists q, nth_error (queries s) i = Some q /\ inside (at_ q);
  i_cur : forall c, cur s = Some c -> exists x, nth_error (conns s) c = Some x;
  i_place : forall i q, nth_error (queries s) i = Some q -> place s (safe q) (at_ q) }.

Lemma live_cur s c x : nth_error (conns s) c = Some x -> alive x = true -> live s c.
Proof. intros; exists x; auto. Qed.
(** A query outside the lock moves on, or the one inside stays inside *)
Lemma inv_goto s i q p : inv s -> nth_error (queries s) i = Some q -> (inside p <-> inside (at_ q)) -> place s (safe q) p -> inv (goto i (safe q) p s).
Proof.
  intros [A B C D E] Q P L. split; cbn [goto conns cur lock queries].
  - exact A.
  - intros j r. rewrite (nth_put _ _ _ _ _ Q). destruct (Nat.eqb_spec i j) as [<-|]; intros F G; [|eauto].
    assert (r = Query (safe q) p) as -> by congruence. apply (B i q); auto. now apply P.
  - intros j F. destruct (C _ F) as (r & G & H). destruct (Nat.eq_dec i j) as [<-|NE].
    + exists (Query (safe q) p). rewrite (nth_put _ _ _ _ _ Q), Nat.eqb_refl. split; auto. apply P. congruence.
    + exists r. rewrite (nth_put _ _ _ _ _ Q). destruct (Nat.eqb_spec i j); [contradiction|auto].
  - exact D.
  - intros j r. rewrite (nth_put _ _ _ _ _ Q). destruct (Nat.eqb_spec i j) as [<-|]; intros F; [|exact (E _ _ F)].
    assert (r = Query (safe q) p) as -> by congruence. exact L.
Qed.
Lemma inv_release s i q p : inv s -> nth_error (queries s) i = Some q -> inside (at_ q) -> ~ inside p -> place s (safe q) p -> inv (unlock (goto i (safe q) p s)).
Proof.
  intros [A B C D E] Q I P L. pose proof (B _ _ Q I) as K. split; cbn [goto unlock conns cur lock queries].
  - exact A.
  - intros j r. rewrite (nth_put _ _ _ _ _ Q). destruct (Nat.eqb_spec i j) as [<-|]; intros F G.
    + assert (r = Query (safe q) p) as -> by congruence. contradiction.
    + exfalso. pose proof (B _ _ F G). congruence.
  - discriminate.
  - exact D.
  - intros j r. rewrite (nth_put _ _ _ _ _ Q). destruct (Nat.eqb_spec i j) as [<-|]; intros F; [|exact (E _ _ F)].
    assert (r = Query (safe q) p) as -> by congruence. exact L.
Qed.
(** A connection changes: it may only end, complete, or get other room *)
Lemma inv_conn s c x y cl : inv s -> nth_error (conns s) c = Some x -> (alive y = true -> alive x = true) -> (complete x = true -> complete y = true) ->
  inv (St (put c y (conns s)) (cur s) (lock s) (queries s) cl).
Proof.
  intros [A B C D E] X L M.
  assert (forall z, nth_error (put c y (conns s)) z = if c =? z then Some y else nth_error (conns s) z) as P by (intros z; apply (nth_put _ _ _ _ _ X)).
  assert (forall z u, nth_error (conns s) z = Some u -> exists v, nth_error (put c y (conns s)) z = Some v /\ (complete u = true -> complete v = true) /\ (alive u = false -> alive v = false)) as Q.
  { intros z u Z. rewrite P. destruct (Nat.eqb_spec c z) as [<-|].
    - exists y. assert (u = x) as -> by congruence. repeat split; auto. destruct (alive y); auto. intros. rewrite L in *; auto.
    - exists u. auto. }
  assert (forall z cl, live (St (put c y (conns s)) (cur s) (lock s) (queries s) cl) z -> live s z) as R.
  { intros z cl' (u & U & V). cbn [conns] in U. rewrite P in U. destruct (Nat.eqb_spec c z) as [<-|].
    - exists x. split; auto. apply L. congruence.
    - exists u. auto. }
  split; cbn [conns cur lock queries].
  - intros z Z. apply A. eapply R; eauto.
  - exact B.
  - exact C.
  - intros z Z. destruct (D _ Z) as [u U]. destruct (Q _ _ U) as (v & V & _). eauto.
  - intros i q F. specialize (E i q F). unfold place in *. destruct (at_ q) as [|[|]|ag|ag|k|o]; cbn [conns cur] in *; auto.
    + intros z Z. apply (E z). eapply R; eauto.
    + destruct E as (z & u & H & K). destruct (Q _ _ K) as (v & V & _). eauto.
    + destruct E as (z & u & H & K & O). destruct (Q _ _ K) as (v & V & W1 & W2). exists z, v. repeat split; auto. tauto.
    + destruct E as (u & K & O). destruct (Q _ _ K) as (v & V & W1 & W2). exists v. split; auto. tauto.
Qed.
Lemma inv_dial s i q ag x : inv s -> nth_error (queries s) i = Some q -> at_ q = Dialing ag ->
  inv (goto i (safe q) (Awaiting ag) (add_conn (Conn true (complete x) (room x)) s)).
Proof.
  intros [A B C D E] Q P.
  assert (forall c, ~ live s c) as N.
  { intros c L. specialize (E _ _ Q). rewrite P in E. destruct ag; cbn in E; [exact (E c L)|]. rewrite (A _ L) in E. discriminate. }
  assert (lock s = Some i) as K. { apply (B _ _ Q). rewrite P. exact I. }
  split; cbn [goto add_conn conns cur lock queries].
  - intros c (u & U & V). cbn [conns goto add_conn] in U. destruct (nth_new _ _ _ _ U) as [F|[-> ->]]; auto. exfalso. apply (N c). exists u; auto.
  - intros j r. rewrite (nth_put _ _ _ _ _ Q). destruct (Nat.eqb_spec i j) as [<-|]; intros F G; [auto|eauto].
  - intros j F. assert (j = i) as -> by congruence. exists (Query (safe q) (Awaiting ag)). rewrite (nth_put _ _ _ _ _ Q), Nat.eqb_refl. split; auto. exact I.
  - intros c F. assert (c = length (conns s)) as -> by congruence. rewrite nth_last. eauto.
  - intros j r. rewrite (nth_put _ _ _ _ _ Q). destruct (Nat.eqb_spec i j) as [<-|]; intros F.
    + assert (r = Query (safe q) (Awaiting ag)) as -> by congruence. cbn. eexists _, _. split; [reflexivity|]. apply nth_last.
    + assert (~ inside (at_ r)) as H. { intros I'. pose proof (B _ _ F I'). congruence. }
      specialize (E _ _ F). unfold place in *. destruct (at_ r) as [|[|]|a|a|k|o]; cbn [conns cur inside goto add_conn] in *; auto; try (exfalso; apply H; exact I).
      destruct E as (u & U & V). exists u. split; auto. now apply nth_old.
Qed.
Lemma inv_step a s s' : inv s -> step a s = Some s' -> inv s'.
Proof.
  intros I E. destruct a as [b|i dial|i|i|c|c|c n]; cbn [step] in E.
  - assert (s' = St (conns s) (cur s) (lock s) (queries s ++ [Query b Waiting]) (closed_by_us s)) as -> by congruence.
    destruct I as [A B C D P]. split; cbn [conns cur lock queries]; auto.
    + intros j q F G. destruct (nth_new _ _ _ _ F) as [F'|[-> _]]; [eauto|destruct G].
    + intros j F. destruct (C _ F) as (q & G & H). exists q. split; auto. now apply nth_old.
    + intros j q F. destruct (nth_new _ _ _ _ F) as [F'|[-> _]]; [|exact Logic.I]. exact (P _ _ F').
  - destruct (nth_error (queries s) i) as [q|] eqn:Q; [|discriminate]. pose proof (i_place _ I _ _ Q) as L.
    destruct (at_ q) as [|ag|ag|ag|c|o] eqn:P; cbn [go] in E; try discriminate.
    + destruct (lock s) eqn:K; [discriminate|].
      assert (forall j r, nth_error (queries s) j = Some r -> ~ inside (at_ r)) as N.
      { intros j r F G. pose proof (i_lock _ I _ _ F G). congruence. }
      match type of E with Some ?x = _ => assert (s' = x) as -> by congruence end. destruct I as [A B C D P'].
      split; cbn [conns cur lock queries goto]; auto.
      * intros j r. rewrite (nth_put _ _ _ _ _ Q). destruct (Nat.eqb_spec i j) as [<-|]; intros F G; [auto|exfalso; exact (N _ _ F G)].
      * intros j F. assert (j = i) as -> by congruence. eexists. rewrite (nth_put _ _ _ _ _ Q), Nat.eqb_refl. split; [reflexivity|]. destruct (cur s); exact Logic.I.
      * intros j r. rewrite (nth_put _ _ _ _ _ Q). destruct (Nat.eqb_spec i j) as [<-|]; intros F; [|exact (P' _ _ F)].
        match type of F with Some ?y = _ => assert (r = y) as -> by congruence end. cbn [safe at_].
        destruct (cur s) as [c|] eqn:U; cbn [place goto conns cur]; [|auto]. destruct (D _ eq_refl) as [x X]. eauto.
    + destruct dial as [x|]; match type of E with Some ?y = _ => assert (s' = y) as -> by congruence end.
      * now apply inv_dial.
      * apply inv_release; auto; [rewrite P; exact Logic.I|exact Logic.I].
    + destruct (cur s) as [c|] eqn:U; [|discriminate]. destruct (nth_error (conns s) c) as [x|] eqn:X; [|discriminate].
      destruct (safe q || complete x || negb (alive x)) eqn:W; [|discriminate]. assert (s' = goto i (safe q) (Opening ag) s) as -> by congruence.
      apply inv_goto; auto; [rewrite P; cbn; tauto|]. exists c, x. repeat split; auto.
      destruct (safe q), (complete x), (alive x); cbn in W; auto; discriminate.
    + destruct (cur s) as [c|] eqn:U; [|discriminate]. destruct (nth_error (conns s) c) as [x|] eqn:X; [|discriminate].
      assert (s' = match alive x, room x with
                   | true, S n => unlock (goto i (safe q) (Streaming c) (set_conn c (Conn true (complete x) n) s))
                   | _, _ => if ag then unlock (goto i (safe q) (Done StreamFailed) s) else goto i (safe q) (Dialing true) (close_conn c s)
                   end) as -> by (destruct (alive x); [destruct (room x)|]; destruct ag; congruence).
      assert (inv (if ag then unlock (goto i (safe q) (Done StreamFailed) s) else goto i (safe q) (Dialing true) (close_conn c s))) as J.
      { destruct ag; [apply inv_release; auto; [rewrite P; exact Logic.I|exact Logic.I]|].
        assert (inv (close_conn c s)) as J. { unfold close_conn. rewrite X. apply (inv_conn s c x); auto. cbn. discriminate. }
        assert (queries (close_conn c s) = queries s) as Z by (unfold close_conn; rewrite X; auto).
        apply inv_goto; auto; [now rewrite Z|rewrite P; cbn; tauto|].
        intros z (u & V & W). pose proof (i_live _ J z (live_cur _ _ _ V W)) as Y. unfold close_conn in Y, V. rewrite X in Y, V. cbn [cur conns] in Y, V.
        assert (z = c) as -> by congruence. rewrite (nth_put _ _ _ _ _ X), Nat.eqb_refl in V. assert (u = Conn false (complete x) (room x)) as -> by congruence. discriminate. }
      destruct (alive x) eqn:L1; auto. destruct (room x) as [|n]; auto.
      assert (inv (set_conn c (Conn true (complete x) n) s)) as J2. { apply (inv_conn s c x); auto. }
      apply inv_release; auto; [rewrite P; exact Logic.I|].
      cbn [place set_conn conns]. rewrite (nth_put _ _ _ _ _ X), Nat.eqb_refl. eexists; split; [reflexivity|]. cbn [complete].
      cbn in L. destruct L as (c' & x' & H1 & H2 & H3). assert (c' = c) as -> by congruence. assert (x' = x) as -> by congruence. rewrite L1 in H3. destruct H3 as [|[|]]; auto; discriminate.
    + destruct (nth_error (conns s) c) as [x|] eqn:X; [|discriminate]. destruct (alive x); [discriminate|].
      assert (s' = goto i (safe q) (Done Cut) s) as -> by congruence. apply inv_goto; auto; [rewrite P; cbn; tauto|exact Logic.I].
  - destruct (nth_error (queries s) i) as [[b [| | | |c|]]|] eqn:Q; try discriminate.
    assert (s' = goto i b (Done TimedOut) s) as -> by congruence. apply (inv_goto s i (Query b (Streaming c))); auto; [cbn; tauto|exact Logic.I].
  - destruct (nth_error (queries s) i) as [[b [| | | |c|]]|] eqn:Q; try discriminate. destruct (nth_error (conns s) c) as [x|]; [|discriminate]. destruct (alive x); [|discriminate].
    assert (s' = goto i b (Done Answered) s) as -> by congruence. apply (inv_goto s i (Query b (Streaming c))); auto; [cbn; tauto|exact Logic.I].
  - destruct (nth_error (conns s) c) as [x|] eqn:X; [|discriminate]. match type of E with Some ?y = _ => assert (s' = y) as -> by congruence end.
    apply (inv_conn s c x); auto. cbn. discriminate.
  - destruct (nth_error (conns s) c) as [x|] eqn:X; [|discriminate]. destruct (alive x) eqn:V; [|discriminate]. match type of E with Some ?y = _ => assert (s' = y) as -> by congruence end.
    apply (inv_conn s c x); auto.
  - destruct (nth_error (conns s) c) as [x|] eqn:X; [|discriminate]. match type of E with Some ?y = _ => assert (s' = y) as -> by congruence end.
    apply (inv_conn s c x); auto.
Qed.
Lemma inv_init : inv init.
Proof.
  split; cbn; try discriminate; try (intros [|i]; discriminate). intros c (x & X & _). destruct c; discriminate.
Qed.
Lemma inv_run ls s s' : inv s -> run ls s = Some s' -> inv s'.
Proof.
  revert s; induction ls as [|a ls IH]; intros s I R; cbn in R; [congruence|].
  destruct (step a s) as [s1|] eqn:S; [|discriminate]. exact (IH _ (inv_step _ _ _ I S) R).
Qed.
Lemma reachable_inv s : reachable s -> inv s.
Proof. intros [ls R]. eapply inv_run; eauto. apply inv_init. Qed.

Theorem one_connection : forall s c d, reachable s -> live s c -> (live s d -> d = c) /\ cur s = Some c.
Proof.
  intros s c d R L. apply reachable_inv in R as [A _ _ _ _]. split; [|auto]. intros M. pose proof (A _ L). pose proof (A _ M). congruence.
Qed.
Theorem one_inside : forall s i j p q, reachable s -> nth_error (queries s) i = Some p -> nth_error (queries s) j = Some q -> inside (at_ p) -> inside (at_ q) -> i = j.
Proof. intros s i j p q R P Q I J. apply reachable_inv in R as [_ B _ _ _]. pose proof (B _ _ P I). pose proof (B _ _ Q J). congruence. Qed.
Theorem not_replayed : forall s i c, reachable s -> nth_error (queries s) i = Some (Query false (Streaming c)) ->
  exists x, nth_error (conns s) c = Some x /\ complete x = true.
Proof.
  intros s i c R Q. apply reachable_inv in R. destruct (i_place _ R _ _ Q) as (x & X & [H|H]); [discriminate|eauto].
Qed.

(** ** Why a query fails *)
Definition dead_ended (ls : list label) (s : st) : Prop := forall c x, nth_error (conns s) c = Some x -> alive x = false -> In (End c) ls.
Lemma roomy_run ls s : roomy ls s -> run ls init = Some s.
Proof.
  induction 1 as [|ls s a s' _ IH S _]; auto. clear -IH S. revert IH. generalize init. induction ls as [|b ls IHl]; intros s0 R; cbn in *.
  - assert (s0 = s) as -> by congruence. now rewrite S.
  - destruct (step b s0); [auto|discriminate].
Qed.
Lemma roomy_room ls s : roomy ls s -> forall c x, nth_error (conns s) c = Some x -> alive x = true -> room x <> 0.
Proof. destruct 1; auto. intros [|c]; discriminate. Qed.
Lemma roomy_step ls a s s' : dead_ended ls s -> closed_by_us s = [] -> (forall i b, nth_error (queries s) i = Some (Query b (Done Cut)) -> exists c, In (End c) ls) ->
  (forall c x, nth_error (conns s) c = Some x -> alive x = true -> room x <> 0) -> step a s = Some s' ->
  dead_ended (ls ++ [a]) s' /\ closed_by_us s' = [] /\ (forall i b, nth_error (queries s') i = Some (Query b (Done Cut)) -> exists c, In (End c) (ls ++ [a])).
Proof.
  intros D L C R S.
  assert (forall cl lk cu, dead_ended (ls ++ [a]) (St (conns s) cu lk cl (closed_by_us s))) as D1.
  { intros cl lk cu c x X Y. cbn in X. apply in_or_app. left. eapply D; eauto. }
  assert (forall c x y cl lk cu cb, nth_error (conns s) c = Some x -> (alive y = true \/ alive x = false) -> dead_ended (ls ++ [a]) (St (put c y (conns s)) cu lk cl cb)) as D2.
  { intros c x y cl lk cu cb X A c' x' X' Y. cbn [conns] in X'. rewrite (nth_put _ _ _ _ _ X) in X'. apply in_or_app. left. destruct (Nat.eqb_spec c c') as [<-|].
    - assert (x' = y) as -> by congruence. destruct A as [A|A]; [congruence|]. eapply D; eauto.
    - eapply D; eauto. }
  assert (forall i b p, (exists q, nth_error (queries s) i = Some q) -> (p = Done Cut -> exists c, In (End c) ls) -> forall j b', nth_error (put i (Query b p) (queries s)) j = Some (Query b' (Done Cut)) -> exists c, In (End c) (ls ++ [a])) as C1.
  { intros i b p [q Q] P j b' F. rewrite (nth_put _ _ _ _ _ Q) in F.
    assert (exists c, In (End c) ls) as [c H]; [|exists c; apply in_or_app; auto].
    destruct (Nat.eqb_spec i j) as [<-|]; [|eauto]. apply P. congruence. }
  assert (forall j b', nth_error (queries s) j = Some (Query b' (Done Cut)) -> exists c, In (End c) (ls ++ [a])) as C2.
  { intros j b' F. destruct (C _ _ F) as [c H]. exists c. apply in_or_app; auto. }
  destruct a as [b|i dial|i|i|c|c|c n]; cbn [step] in S.
  - match type of S with Some ?x = _ => assert (s' = x) as -> by congruence end. split; [apply D1|split; [exact L|]].
    cbn [queries]. intros j b' F. destruct (nth_new _ _ _ _ F) as [F'|[F' _]]; [eauto|discriminate].
  - destruct (nth_error (queries s) i) as [q|] eqn:Q; [|discriminate].
    destruct (at_ q) as [|ag|ag|ag|c|o] eqn:P; cbn [go] in S; try discriminate.
    + destruct (lock s); [discriminate|]. match type of S with Some ?x = _ => assert (s' = x) as -> by congruence end. split; [apply D1|split; [exact L|]].
      apply C1; eauto. destruct (cur s); discriminate.
    + destruct dial as [x|]; match type of S with Some ?x = _ => assert (s' = x) as -> by congruence end.
      * split; [|split; [exact L|apply C1; eauto; discriminate]].
        intros c y X Y. cbn [conns goto add_conn] in X. destruct (nth_new _ _ _ _ X) as [F|[-> _]]; [|discriminate]. apply in_or_app. left. eapply D; eauto.
      * split; [apply D1|split; [exact L|apply C1; eauto; discriminate]].
    + destruct (cur s) as [c|]; [|discriminate]. destruct (nth_error (conns s) c) as [x|]; [|discriminate].
      destruct (safe q || complete x || negb (alive x)); [|discriminate]. match type of S with Some ?x = _ => assert (s' = x) as -> by congruence end.
      split; [apply D1|split; [exact L|apply C1; eauto; discriminate]].
    + destruct (cur s) as [c|]; [|discriminate]. destruct (nth_error (conns s) c) as [x|] eqn:X; [|discriminate].
      destruct (alive x) eqn:A.
      * destruct (room x) as [|n] eqn:N; [exfalso; exact (R _ _ X A N)|]. match type of S with Some ?x = _ => assert (s' = x) as -> by congruence end.
        split; [apply (D2 c x); auto|split; [exact L|apply C1; eauto; discriminate]].
      * destruct ag; match type of S with Some ?x = _ => assert (s' = x) as -> by congruence end.
        { split; [apply D1|split; [exact L|apply C1; eauto; discriminate]]. }
        unfold close_conn. rewrite X, A. split; [apply (D2 c x); auto|split; [exact L|apply C1; eauto; discriminate]].
    + destruct (nth_error (conns s) c) as [x|] eqn:X; [|discriminate]. destruct (alive x) eqn:A; [discriminate|].
      match type of S with Some ?x = _ => assert (s' = x) as -> by congruence end. split; [apply D1|split; [exact L|apply C1; eauto]].
  - destruct (nth_error (queries s) i) as [[b [| | | |c|]]|] eqn:Q; try discriminate. match type of S with Some ?x = _ => assert (s' = x) as -> by congruence end.
    split; [apply D1|split; [exact L|apply C1; eauto; discriminate]].
  - destruct (nth_error (queries s) i) as [[b [| | | |c|]]|] eqn:Q; try discriminate. destruct (nth_error (conns s) c) as [x|]; [|discriminate]. destruct (alive x); [|discriminate].
    match type of S with Some ?x = _ => assert (s' = x) as -> by congruence end. split; [apply D1|split; [exact L|apply C1; eauto; discriminate]].
  - destruct (nth_error (conns s) c) as [x|] eqn:X; [|discriminate]. match type of S with Some ?x = _ => assert (s' = x) as -> by congruence end.
    split; [|split; [exact L|exact C2]]. intros c' y X' Y. cbn [conns set_conn] in X'. rewrite (nth_put _ _ _ _ _ X) in X'. apply in_or_app.
    destruct (Nat.eqb_spec c c') as [<-|]; [right; left; auto|left; eapply D; eauto].
  - destruct (nth_error (conns s) c) as [x|] eqn:X; [|discriminate]. destruct (alive x) eqn:V; [|discriminate]. match type of S with Some ?x = _ => assert (s' = x) as -> by congruence end.
    split; [apply (D2 c x); auto|split; [exact L|exact C2]].
  - destruct (nth_error (conns s) c) as [x|] eqn:X; [|discriminate]. match type of S with Some ?x = _ => assert (s' = x) as -> by congruence end.
    split; [apply (D2 c x); auto; cbn; destruct (alive x); auto|split; [exact L|exact C2]].
Qed.
Theorem cut_from_outside : forall ls s, roomy ls s -> closed_by_us s = [] /\ forall i b, nth_error (queries s) i = Some (Query b (Done Cut)) -> exists c, In (End c) ls.
Proof.
  intros ls s H. assert (dead_ended ls s /\ closed_by_us s = [] /\ (forall i b, nth_error (queries s) i = Some (Query b (Done Cut)) -> exists c, In (End c) ls)) as (_ & A & B); [|auto].
  induction H as [|ls s a s' H IH S _].
  - split; [intros [|c]; discriminate|]. split; auto. intros [|i]; discriminate.
  - destruct IH as (A & B & C). eapply roomy_step; eauto. eapply roomy_room; eauto.
Qed.

(** ** Steps of a query *)
Definition weight (p : pc) : nat :=
  match p with Waiting => 8 | Dialing false => 7 | Awaiting false => 6 | Opening false => 5 | Dialing true => 4 | Awaiting true => 3 | Opening true => 2 | Streaming _ => 1 | Done _ => 0 end.
Definition rest (s : st) (i : nat) : nat := match nth_error (queries s) i with Some q => weight (at_ q) | None => 8 end.
Lemma rest_put s i q p cu lk co cb j : nth_error (queries s) i = Some q -> rest (St co cu lk (put i (Query (safe q) p) (queries s)) cb) j = if i =? j then weight p else rest s j.
Proof. intros Q. unfold rest. cbn [queries]. rewrite (nth_put _ _ _ _ _ Q). destruct (i =? j); auto. Qed.
Lemma rest_step a s s' i : step a s = Some s' -> rest s' i + match a with Go j _ => if i =? j then 1 else 0 | _ => 0 end <= rest s i.
Proof.
  intros S. destruct a as [b|j dial|j|j|c|c|c n]; cbn [step] in S.
  - match type of S with Some ?x = _ => assert (s' = x) as -> by congruence end. unfold rest. cbn [queries].
    destruct (nth_error (queries s) i) eqn:Q; [rewrite (nth_old _ _ _ _ Q); lia|].
    destruct (nth_error (queries s ++ [Query b Waiting]) i) eqn:Q2; [|lia]. destruct (nth_new _ _ _ _ Q2) as [F|[-> _]]; [congruence|cbn; lia].
  - destruct (nth_error (queries s) j) as [q|] eqn:Q; [|discriminate].
    assert (forall p co cu lk cb, weight p < weight (at_ q) -> rest (St co cu lk (put j (Query (safe q) p) (queries s)) cb) i + (if i =? j then 1 else 0) <= rest s i) as G.
    { intros p co cu lk cb W. rewrite (rest_put s j q) by auto. rewrite (Nat.eqb_sym i j). destruct (Nat.eqb_spec j i) as [<-|]; [|lia]. unfold rest. rewrite Q. lia. }
    destruct (at_ q) as [|ag|ag|ag|c|o] eqn:P; cbn [go] in S; try discriminate.
    + destruct (lock s); [discriminate|]. match type of S with Some ?x = _ => assert (s' = x) as -> by congruence end. apply G. destruct (cur s); cbn; lia.
    + destruct dial as [x|]; match type of S with Some ?x = _ => assert (s' = x) as -> by congruence end; apply G; destruct ag; cbn; lia.
    + destruct (cur s) as [c|]; [|discriminate]. destruct (nth_error (conns s) c) as [x|]; [|discriminate].
      destruct (safe q || complete x || negb (alive x)); [|discriminate]. match type of S with Some ?x = _ => assert (s' = x) as -> by congruence end. apply G. destruct ag; cbn; lia.
    + destruct (cur s) as [c|]; [|discriminate]. destruct (nth_error (conns s) c) as [x|] eqn:X; [|discriminate].
      assert (s' = match alive x, room x with
                   | true, S n => unlock (goto j (safe q) (Streaming c) (set_conn c (Conn true (complete x) n) s))
                   | _, _ => if ag then unlock (goto j (safe q) (Done StreamFailed) s) else goto j (safe q) (Dialing true) (close_conn c s)
                   end) as -> by (destruct (alive x); [destruct (room x)|]; destruct ag; congruence).
      unfold close_conn. rewrite X. destruct (alive x); [destruct (room x)|]; destruct ag; apply G; cbn; lia.
    + destruct (nth_error (conns s) c) as [x|] eqn:X; [|discriminate]. destruct (alive x) eqn:A; [discriminate|].
      match type of S with Some ?x = _ => assert (s' = x) as -> by congruence end. apply G. cbn; lia.
  - destruct (nth_error (queries s) j) as [[b [| | | |c|]]|] eqn:Q; try discriminate. match type of S with Some ?x = _ => assert (s' = x) as -> by congruence end.
    unfold goto. rewrite (rest_put s j (Query b (Streaming c))) by auto. destruct (Nat.eqb_spec j i) as [<-|]; cbn; lia.
  - destruct (nth_error (queries s) j) as [[b [| | | |c|]]|] eqn:Q; try discriminate. destruct (nth_error (conns s) c) as [x|]; [|discriminate]. destruct (alive x); [|discriminate].
    match type of S with Some ?x = _ => assert (s' = x) as -> by congruence end.
    unfold goto. rewrite (rest_put s j (Query b (Streaming c))) by auto. destruct (Nat.eqb_spec j i) as [<-|]; cbn; lia.
  - destruct (nth_error (conns s) c) as [x|]; [|discriminate]. match type of S with Some ?x = _ => assert (s' = x) as -> by congruence end. unfold rest; cbn; lia.
  - destruct (nth_error (conns s) c) as [x|]; [|discriminate]. destruct (alive x); [|discriminate]. match type of S with Some ?x = _ => assert (s' = x) as -> by congruence end. unfold rest; cbn; lia.
  - destruct (nth_error (conns s) c) as [x|]; [|discriminate]. match type of S with Some ?x = _ => assert (s' = x) as -> by congruence end. unfold rest; cbn; lia.
Qed.
Theorem few_steps : forall ls s i, run ls init = Some s -> steps_of i ls <= 8.
Proof.
  intros ls s i. assert (forall s0, run ls s0 = Some s -> steps_of i ls <= rest s0 i) as G.
  { induction ls as [|a ls IH]; intros s0 R; cbn [run steps_of] in *; [lia|].
    destruct (step a s0) as [s1|] eqn:S; [|discriminate]. specialize (IH _ R). pose proof (rest_step _ _ _ i S). destruct a; lia. }
  intros R. specialize (G _ R). unfold rest in G. cbn in G. destruct i; cbn in G; lia.
Qed.
(** The one inside can always go on, but for a handshake under way *)
Theorem holder_goes_on : forall s i, reachable s -> lock s = Some i -> exists q, nth_error (queries s) i = Some q /\ inside (at_ q) /\
  (forall dial, step (Go i dial) s <> None) \/
  (exists q c x, nth_error (queries s) i = Some q /\ safe q = false /\ nth_error (conns s) c = Some x /\ alive x = true /\ complete x = false /\
     exists s', step (Handshake c) s = Some s' /\ forall dial, step (Go i dial) s' <> None).
Proof.
  intros s i R L. apply reachable_inv in R. destruct (i_held _ R _ L) as (q & Q & I). pose proof (i_place _ R _ _ Q) as P.
  exists q. destruct (at_ q) as [|ag|ag|ag|c|o] eqn:E; try destruct I.
  - left. repeat split; auto; try (rewrite E; exact Logic.I). intros [x|]; cbn [step]; rewrite Q, E; discriminate.
  - destruct P as (c & x & C & X). destruct (safe q || complete x || negb (alive x)) eqn:W.
    + left. repeat split; auto; try (rewrite E; exact Logic.I). intros dial. cbn [step]. rewrite Q, E. cbn [go]. rewrite C, X, W. discriminate.
    + right. exists q, c, x. apply Bool.orb_false_iff in W as [W W3]. apply Bool.orb_false_iff in W as [W1 W2]. apply Bool.negb_false_iff in W3.
      repeat split; auto. cbn [step]. rewrite X, W3. eexists; split; [reflexivity|]. intros dial. cbn [step set_conn queries]. rewrite Q, E. cbn [go set_conn cur conns].
      rewrite C, (nth_put _ _ _ _ _ X), Nat.eqb_refl. cbn [complete]. rewrite W1. discriminate.
  - destruct P as (c & x & C & X & _). left. repeat split; auto; try (rewrite E; exact Logic.I). intros dial. cbn [step]. rewrite Q, E. cbn [go]. rewrite C, X.
    destruct (alive x); [destruct (room x)|]; destruct ag; discriminate.
Qed.

(** ** After a failure *)
Lemma put_put {A} (l : list A) i x y : put i x (put i y l) = put i x l.
Proof. revert i; induction l as [|z l IH]; intros [|i]; cbn; auto. now rewrite IH. Qed.
Lemma put_last {A} (l : list A) x y : put (length l) y (l ++ [x]) = l ++ [y].
Proof. induction l as [|z l IH]; cbn; [auto|now rewrite IH]. Qed.
Fixpoint alone (i : nat) (x : conn) (n : nat) : list label := match n with O => [] | S n => Go i (Some x) :: alone i x n end.
Definition streaming (s : st) (i : nat) : Prop := exists b c, nth_error (queries s) i = Some (Query b (Streaming c)) /\ live s c.
Lemma dial_streams s i b ag x : nth_error (queries s) i = Some (Query b (Dialing ag)) -> complete x = true -> room x <> 0 ->
  exists s', run (alone i x 3) s = Some s' /\ streaming s' i.
Proof.
  intros Q C N. destruct (room x) as [|n] eqn:M; [congruence|].
  assert (forall y, nth_error (put i y (queries s)) i = Some y) as P by (intros y; rewrite (nth_put _ _ _ _ _ Q), Nat.eqb_refl; auto).
  cbn [alone run step]. rewrite Q. cbn [safe at_ go]. unfold goto, add_conn; cbn [conns cur lock queries closed_by_us]. rewrite P. cbn [safe at_ go cur conns].
  rewrite nth_last. cbn [complete]. rewrite C, Bool.orb_true_r. cbn [orb]. unfold goto; cbn [conns cur lock queries closed_by_us]. rewrite put_put, P.
  cbn [safe at_ go cur conns]. rewrite nth_last. cbn [alive room complete]. rewrite M. unfold unlock, goto, set_conn; cbn [conns cur lock queries closed_by_us].
  rewrite put_put, put_last. eexists; split; [reflexivity|]. exists b, (length (conns s)). cbn [queries]. split; [apply P|].
  eexists. cbn [conns]. split; [apply nth_last|reflexivity].
Qed.
Lemma run_alone_app i x m n s : run (alone i x (m + n)) s = match run (alone i x m) s with Some s' => run (alone i x n) s' | None => None end.
Proof.
  revert s; induction m as [|m IH]; intros s; auto. change (alone i x (S m + n)) with (Go i (Some x) :: alone i x (m + n)).
  change (alone i x (S m)) with (Go i (Some x) :: alone i x m). cbn [run]. destruct (step (Go i (Some x)) s); auto.
Qed.
Theorem next_one_streams : forall s i b x, reachable s -> lock s = None -> nth_error (queries s) i = Some (Query b Waiting) ->
  complete x = true -> room x <> 0 -> (b = true \/ forall c y, nth_error (conns s) c = Some y -> alive y = true -> complete y = true) ->
  exists n s', run (alone i x n) s = Some s' /\ streaming s' i.
Proof.
  intros s i b x R L Q C N H. apply reachable_inv in R.
  assert (forall y, nth_error (put i y (queries s)) i = Some y) as P by (intros y; rewrite (nth_put _ _ _ _ _ Q), Nat.eqb_refl; auto).
  set (s1 := goto i b (match cur s with None => Dialing false | Some _ => Awaiting false end) (St (conns s) (cur s) (Some i) (queries s) (closed_by_us s))).
  assert (run (alone i x 1) s = Some s1) as R1. { cbn [alone run step]. rewrite Q. cbn [safe at_ go]. rewrite L. reflexivity. }
  destruct (cur s) as [c|] eqn:U.
  - destruct (i_cur _ R _ U) as [y Y].
    set (s2 := goto i b (Opening false) s1).
    assert (run (alone i x 2) s = Some s2) as R2.
    { change 2 with (1 + 1). rewrite run_alone_app, R1. cbn [alone run step]. unfold s1 at 1. cbn [goto queries]. rewrite P. cbn [safe at_ go s1 goto cur conns]. rewrite Y.
      assert (b || complete y || negb (alive y) = true) as ->; [|reflexivity].
      destruct H as [->|H]; auto. destruct (alive y) eqn:A; [rewrite (H _ _ Y A)|]; rewrite !Bool.orb_true_r; auto. }
    assert (nth_error (queries s2) i = Some (Query b (Opening false))) as Q2. { unfold s2, s1, goto; cbn [queries]. rewrite put_put. apply P. }
    assert (nth_error (conns s2) c = Some y /\ cur s2 = Some c) as [Y2 U2] by (unfold s2, s1; cbn [goto conns cur]; auto).
    assert ((alive y = true /\ room y <> 0) \/ exists s3, step (Go i (Some x)) s2 = Some s3 /\ nth_error (queries s3) i = Some (Query b (Dialing true))) as [[A B]|(s3 & S3 & Q3)].
    { destruct (alive y) eqn:A; [destruct (room y) eqn:M; [|left; auto]|]; right; cbn [step]; rewrite Q2; cbn [safe at_ go]; rewrite U2, Y2, A, ?M;
        eexists; (split; [reflexivity|]); unfold close_conn; rewrite Y2; cbn [goto queries]; rewrite (nth_put _ _ _ _ _ Q2), Nat.eqb_refl; auto. }
    + exists 3. destruct (room y) as [|n] eqn:M; [congruence|]. exists (unlock (goto i b (Streaming c) (set_conn c (Conn true (complete y) n) s2))). split.
      * change 3 with (2 + 1). rewrite run_alone_app, R2. cbn [alone run step]. rewrite Q2. cbn [safe at_ go]. rewrite U2, Y2, A, M. reflexivity.
      * exists b, c. cbn [unlock goto set_conn queries conns]. rewrite (nth_put _ _ _ _ _ Q2), Nat.eqb_refl. split; auto.
        eexists. cbn [unlock goto set_conn conns]. rewrite (nth_put _ _ _ _ _ Y2), Nat.eqb_refl. split; reflexivity.
    + destruct (dial_streams s3 i b true x Q3 C N) as (s' & R3 & T). exists (3 + 3), s'. split; auto. rewrite run_alone_app.
      assert (run (alone i x 3) s = Some s3) as ->; auto. change 3 with (2 + 1). rewrite run_alone_app, R2. cbn [alone run]. rewrite S3. reflexivity.
  - assert (nth_error (queries s1) i = Some (Query b (Dialing false))) as Q1 by (unfold s1; cbn [goto queries]; apply P).
    destruct (dial_streams s1 i b false x Q1 C N) as (s' & R3 & T). exists (1 + 3), s'. split; auto. rewrite run_alone_app, R1. exact R3.
Qed.

(** ** What goes wrong *)
Definition full_run : list label :=
  [New true; Go 0 None; Go 0 (Some (Conn true true 1)); Go 0 None; Go 0 None; New true; Go 1 None; Go 1 None; Go 1 None; Go 0 None].
Theorem limit_cuts : exists ls s, run ls init = Some s /\ (forall c, ~ In (End c) ls) /\ nth_error (queries s) 0 = Some (Query true (Done Cut)) /\ closed_by_us s = [0].
Proof.
  exists full_run. eexists. split; [vm_compute; reflexivity|]. split; [|split; reflexivity].
  intros c H. repeat (destruct H as [H|H]; [discriminate|]). destruct H.
Qed.
Fixpoint failing (n : nat) : list label := match n with O => [New true] | S n => failing n ++ [New true; Go (S n) None; Go (S n) None] end.
Lemma run_app l1 l2 s : run (l1 ++ l2) s = match run l1 s with Some s' => run l2 s' | None => None end.
Proof. revert s; induction l1 as [|a l1 IH]; intros s; cbn; auto. destruct (step a s); auto. Qed.
Theorem waits_for_all : forall n, exists ls s, run ls init = Some s /\ nth_error (queries s) 0 = Some (Query true Waiting) /\
  length (filter (fun q => match at_ q with Done DialFailed => true | _ => false end) (queries s)) = n.
Proof.
  intros n. exists (failing n). exists (St [] None None (Query true Waiting :: repeat (Query true (Done DialFailed)) n) []).
  split; [|split; [reflexivity|cbn; induction n; cbn; auto]].
  induction n as [|n IH]; [reflexivity|]. cbn [failing]. rewrite run_app, IH. cbn [run step conns cur lock queries closed_by_us].
  set (l := Query true Waiting :: repeat (Query true (Done DialFailed)) n).
  assert (length l = S n) as E by (unfold l; cbn; now rewrite repeat_length). rewrite <- E.
  rewrite nth_last. cbn [safe at_ go lock cur]. unfold goto; cbn [conns cur lock queries closed_by_us]. rewrite put_last, nth_last.
  cbn [safe at_ go]. unfold unlock, goto; cbn [conns cur lock queries closed_by_us]. rewrite put_last. do 2 f_equal.
  unfold l. cbn [app]. f_equal. clear. cbn [length]. rewrite repeat_length. symmetry. exact (repeat_cons n _).
Qed.
Definition roomyb (s : st) : bool := forallb (fun x => negb (alive x) || negb (room x =? 0)) (conns s).
Fixpoint checked (ls : list label) (s : st) : bool := match ls with [] => true | a :: ls' => match step a s with Some s' => roomyb s' && checked ls' s' | None => false end end.
Lemma checked_roomy ls s : run ls init = Some s -> checked ls init = true -> roomy ls s.
Proof.
  assert (forall l1 s1, roomy l1 s1 -> forall l2 s2, run l2 s1 = Some s2 -> checked l2 s1 = true -> roomy (l1 ++ l2) s2) as G.
  { intros l1 s1 H l2. revert l1 s1 H. induction l2 as [|a l2 IH]; intros l1 s1 H s2 R C; cbn in R, C.
    - rewrite app_nil_r. congruence.
    - destruct (step a s1) as [s3|] eqn:S; [|discriminate]. apply andb_prop in C as [C1 C2].
      change (a :: l2) with ([a] ++ l2). rewrite app_assoc. eapply IH; eauto. eapply roomy_snoc; eauto.
      intros c x X A. unfold roomyb in C1. rewrite forallb_forall in C1. specialize (C1 _ (nth_error_In _ _ X)). rewrite A in C1. cbn in C1.
      intros E. rewrite E in C1. discriminate. }
  apply (G [] init roomy_nil).
Qed.
