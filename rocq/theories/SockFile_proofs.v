From Coq Require Import ZArith Lia.
From Verif Require Import Base SockFile_model SockFile_spec.
Local Open Scope nat_scope.

Lemma nth_put {A} (l : list A) i x p j : nth_error l i = Some p -> nth_error (put i x l) j = if i =? j then Some x else nth_error l j.
Proof.
  revert i j; induction l as [|y l IH]; intros [|i] [|j] H; try discriminate; cbn in *; auto.
Qed.
Lemma nth_new {A} (l : list A) x j p : nth_error (l ++ [x]) j = Some p -> nth_error l j = Some p \/ p = x.
Proof.
  intros H. destruct (Nat.lt_ge_cases j (length l)).
  - rewrite nth_error_app1 in H; auto.
  - rewrite nth_error_app2 in H by auto. destruct (j - length l) as [|k]; cbn in H; [right; congruence|destruct k; discriminate].
Qed.

(** ** Abstract names, in any order *)
Record ainv (dflt : N) (s : st) : Prop := AInv {
  a_held : forall i p n, nth_error (pcs s) i = Some p -> socket p = Some n -> entry s = Some (Sock n dflt);
  a_uniq : forall i j p q n, nth_error (pcs s) i = Some p -> nth_error (pcs s) j = Some q -> socket p = Some n -> socket q = Some n -> i = j;
  a_sock : forall n m, entry s = Some (Sock n m) -> n < next s;
  a_none : forall i p, nth_error (pcs s) i = Some p -> p <> Dial /\ p <> Remove /\ p <> Bind true /\ forall n, p <> Chmod n }.

Ltac upd E := let H := fresh in intros ? ? H; try (cbn [pcs goto with_entry entry next] in H); revert H.

(** Moving server i on without touching the name *)
Lemma ainv_goto dflt s i p q : ainv dflt s -> nth_error (pcs s) i = Some p -> socket q = socket p \/ socket q = None ->
  (q <> Dial /\ q <> Remove /\ q <> Bind true /\ forall n, q <> Chmod n) -> ainv dflt (goto i q s).
Proof.
  intros [H U S X] E Q Z. split; cbn [goto pcs entry next].
  - intros j r n. rewrite (nth_put _ _ _ _ _ E). destruct (Nat.eqb_spec i j) as [<-|]; intros F G.
    + assert (r = q) as -> by congruence. destruct Q as [Q|Q]; rewrite Q in G; [eauto|discriminate].
    + eauto.
  - intros j k r t n. rewrite !(nth_put _ _ _ _ _ E).
    destruct (Nat.eqb_spec i j) as [<-|], (Nat.eqb_spec i k) as [<-|]; intros F G K L; auto.
    + assert (r = q) as -> by congruence. destruct Q as [Q|Q]; rewrite Q in K; [eauto|discriminate].
    + assert (t = q) as -> by congruence. destruct Q as [Q|Q]; rewrite Q in L; [eauto|discriminate].
    + eauto.
  - exact S.
  - intros j r. rewrite (nth_put _ _ _ _ _ E). destruct (Nat.eqb_spec i j) as [<-|]; intros F; [|eauto].
    assert (r = q) as -> by congruence. exact Z.
Qed.
(** The socket of server i is closed *)
Lemma ainv_end dflt s i p n r : ainv dflt s -> nth_error (pcs s) i = Some p -> socket p = Some n -> ainv dflt (release true n (goto i (Ended r) s)).
Proof.
  intros I E N.
  assert (ainv dflt (goto i (Ended r) s)) as J.
  { eapply ainv_goto; eauto. repeat split; discriminate. }
  unfold release. destruct (entry (goto i (Ended r) s)) as [[m mode|]|] eqn:F; auto.
  destruct (Nat.eqb_spec n m) as [<-|]; auto.
  destruct J as [H U S X]. split; cbn [with_entry entry pcs next]; eauto; try discriminate.
  intros j q k G K. exfalso. pose proof (H _ _ _ G K) as L. rewrite F in L.
  assert (k = n) as -> by congruence. cbn [goto pcs] in G. rewrite (nth_put _ _ _ _ _ E) in G.
  destruct (Nat.eqb_spec i j) as [<-|NE].
  - assert (q = Ended r) as -> by congruence. discriminate.
  - apply NE. destruct I as [_ U' _ _]. exact (U' _ _ _ _ _ E G N K).
Qed.
Lemma ainv_step modes dflt a s s' : ainv dflt s -> hands_off s a -> step true modes dflt a s = Some s' -> ainv dflt s'.
Proof.
  intros I O E. destruct a as [|i ok|i|i|e]; cbn [step] in E.
  - assert (s' = St (entry s) (next s) (pcs s ++ [Bind false])) as -> by congruence.
    destruct I as [H U S X]. split; cbn [pcs entry next]; eauto.
    + intros i p n F G. destruct (nth_new _ _ _ _ F) as [K| ->]; [eauto|discriminate].
    + intros i j p q n F G K L. destruct (nth_new _ _ _ _ F) as [F'| ->]; [|discriminate]. destruct (nth_new _ _ _ _ G) as [G'| ->]; [|discriminate]. eauto.
    + intros i p F. destruct (nth_new _ _ _ _ F) as [K| ->]; [eauto|]. repeat split; discriminate.
  - destruct (nth_error (pcs s) i) as [p|] eqn:P; [|discriminate].
    assert (s' = match go true modes dflt i ok p s with Some x => x | None => s end) as -> by (rewrite E; auto).
    assert (p <> Dial /\ p <> Remove /\ p <> Bind true /\ forall n, p <> Chmod n) as (X1 & X2 & X3 & X4) by (destruct I; eauto).
    destruct p as [again|n| | |n|n|n r|n r|r]; cbn [go]; try congruence.
    + destruct again; [congruence|]. destruct ok.
      * destruct (entry s) as [e|] eqn:F.
        { eapply ainv_goto; eauto. repeat split; discriminate. }
        destruct I as [H U S X].
        assert (forall j q n, nth_error (pcs s) j = Some q -> socket q = Some n -> False) as V.
        { intros j q n G K. pose proof (H _ _ _ G K). congruence. }
        split; cbn [pcs entry next].
        { intros j q n. rewrite (nth_put _ _ _ _ _ P). destruct (Nat.eqb_spec i j); intros G K; [|exfalso; eauto].
          assert (q = Listen (next s)) as -> by congruence. cbn in K. congruence. }
        { intros j k q r n. rewrite !(nth_put _ _ _ _ _ P). destruct (Nat.eqb_spec i j), (Nat.eqb_spec i k); intros; try congruence; exfalso; eauto. }
        { intros n m G. assert (n = next s) as -> by congruence. auto. }
        { intros j q. rewrite (nth_put _ _ _ _ _ P). destruct (Nat.eqb_spec i j); intros G; [|eauto].
          assert (q = Listen (next s)) as -> by congruence. repeat split; discriminate. }
      * eapply ainv_goto; eauto. repeat split; discriminate.
    + rewrite Bool.orb_true_r. destruct ok; [|eapply (ainv_end dflt s i (Listen n)); eauto].
      eapply ainv_goto; eauto. repeat split; discriminate.
    + eapply ainv_goto; eauto. repeat split; discriminate.
    + eapply (ainv_end dflt s i (Close n r)); eauto.
  - destruct (nth_error (pcs s) i) as [[| | | | |n| | |]|] eqn:P; try discriminate.
    assert (s' = goto i (Unlink n Stopped) s) as -> by congruence. eapply ainv_goto; eauto. repeat split; discriminate.
  - destruct (nth_error (pcs s) i) as [p|] eqn:P; [|discriminate]. destruct (alive p); [|discriminate].
    destruct (socket p) as [n|] eqn:N.
    + assert (s' = release true n (goto i (Ended Died) s)) as -> by congruence. eapply ainv_end; eauto.
    + assert (s' = goto i (Ended Died) s) as -> by congruence. eapply ainv_goto; eauto. repeat split; discriminate.
  - match type of E with Some (with_entry ?x s) = _ => assert (s' = with_entry x s) as -> by congruence end. cbn [hands_off] in O.
    destruct I as [H U S X]. split; cbn [with_entry pcs entry next]; auto.
    + intros j p n G K. exfalso. pose proof (H _ _ _ G K) as L. exact (O _ _ _ _ L G K).
    + intros n m G. destruct e as [[? ?]|]; discriminate.
Qed.
Lemma ainv_history modes dflt ls s : any_order true modes dflt ls s -> ainv dflt s.
Proof.
  induction 1 as [e N|ls s a s' _ IH O E _].
  - split; cbn; try (intros [|i]; discriminate). intros n m ->. destruct N.
  - exact (ainv_step _ _ _ _ _ IH O E).
Qed.
Theorem abstract_one_owner : forall modes dflt ls s i j, any_order true modes dflt ls s -> serves s i ->
  reaches s i dflt /\ (serves s j -> j = i).
Proof.
  intros modes dflt ls s i j H [n E]. apply ainv_history in H as [H U S X]. split.
  - exists n, (Serving n). split; [eapply H; eauto; reflexivity|]. auto.
  - intros [m F]. assert (m = n) as ->.
    { pose proof (H _ _ _ E eq_refl) as A. pose proof (H _ _ _ F eq_refl) as B. congruence. }
    eapply U; eauto; reflexivity.
Qed.

(** ** Files, one at a time *)
Definition held (p : pc) : option nat := match p with Listen n | Chmod n | Serving n | Unlink n _ => Some n | _ => None end.
Definition mode_at (modes : nat -> N) (dflt : N) (i : nat) (p : pc) (m : N) : Prop :=
  match p with Listen _ => m = dflt | Chmod _ => m = dflt /\ modes i <> 0%N | Serving _ => m = wanted modes dflt i | _ => True end.
Record finv (modes : nat -> N) (dflt : N) (s : st) : Prop := FInv {
  f_held : forall i p n, nth_error (pcs s) i = Some p -> held p = Some n -> exists m, entry s = Some (Sock n m) /\ mode_at modes dflt i p m;
  f_uniq : forall i j p q n, nth_error (pcs s) i = Some p -> nth_error (pcs s) j = Some q -> socket p = Some n -> socket q = Some n -> i = j;
  f_sock : forall i p n, nth_error (pcs s) i = Some p -> socket p = Some n -> n < next s;
  f_entry : forall n m, entry s = Some (Sock n m) -> n < next s;
  f_remove : forall i j q n, nth_error (pcs s) i = Some Remove -> nth_error (pcs s) j = Some q -> held q = Some n -> False }.
Lemma held_socket p n : held p = Some n -> socket p = Some n.
Proof. destruct p; cbn; congruence. Qed.

Lemma finv_goto modes dflt s i p q : finv modes dflt s -> nth_error (pcs s) i = Some p ->
  (forall n, socket q = Some n -> socket p = Some n) ->
  (forall n, held q = Some n -> held p = Some n /\ forall m, mode_at modes dflt i p m -> mode_at modes dflt i q m) ->
  (q = Remove -> forall j r n, nth_error (pcs s) j = Some r -> held r = Some n -> i = j) ->
  finv modes dflt (goto i q s).
Proof.
  intros [H U S X R] E Q Z W. split; cbn [goto pcs entry next].
  - intros j r n. rewrite (nth_put _ _ _ _ _ E). destruct (Nat.eqb_spec i j) as [<-|]; intros F G; [|eauto].
    assert (r = q) as -> by congruence. destruct (Z _ G) as (A & B). destruct (H _ _ _ E A) as (m & C & D). eauto.
  - intros j k r t n. rewrite !(nth_put _ _ _ _ _ E).
    destruct (Nat.eqb_spec i j) as [<-|], (Nat.eqb_spec i k) as [<-|]; intros F G K L; auto.
    + assert (r = q) as -> by congruence. eauto.
    + assert (t = q) as -> by congruence. eauto.
    + eauto.
  - intros j r n. rewrite (nth_put _ _ _ _ _ E). destruct (Nat.eqb_spec i j) as [<-|]; intros F G; [|eauto].
    assert (r = q) as -> by congruence. eauto.
  - exact X.
  - intros j k r n. rewrite !(nth_put _ _ _ _ _ E). destruct (Nat.eqb_spec i j) as [<-|], (Nat.eqb_spec i k) as [<-|]; intros F G K.
    + assert (q = Remove) as -> by congruence. assert (r = Remove) as -> by congruence. discriminate.
    + assert (q = Remove) as A by congruence. eapply W in A; eauto.
    + assert (r = q) as -> by congruence. destruct (Z _ K) as [A _]. eauto.
    + eauto.
Qed.
(** The file may change if no server holds it *)
Lemma finv_entry modes dflt s e : finv modes dflt s -> (forall i p n, nth_error (pcs s) i = Some p -> held p = Some n -> False) ->
  (forall n m, e = Some (Sock n m) -> n < next s) -> finv modes dflt (with_entry e s).
Proof.
  intros [H U S X R] V W. split; cbn [with_entry pcs entry next]; eauto. intros i p n E F. exfalso. eauto.
Qed.
Lemma starts s i p : nth_error (pcs s) i = Some p -> (p = Dial \/ p = Remove \/ (exists b, p = Bind b) \/ exists n, p = Listen n \/ p = Chmod n) -> starting s i.
Proof. unfold starting. eauto. Qed.
Lemma listens_iff n p : listens n p = true <-> socket p = Some n /\ (forall m, p <> Listen m).
Proof.
  destruct p; cbn; rewrite ?Nat.eqb_eq; split; try (intros [? ?]); intros; subst; try discriminate; try (split; [congruence|discriminate]); try congruence.
  exfalso. eapply H0. reflexivity.
Qed.

Lemma finv_step modes dflt a s s' : finv modes dflt s -> one_at_a_time s -> hands_off s a -> step false modes dflt a s = Some s' -> finv modes dflt s'.
Proof.
  intros I One O E. destruct a as [|i ok|i|i|e]; cbn [step] in E.
  - assert (s' = St (entry s) (next s) (pcs s ++ [Bind false])) as -> by congruence.
    destruct I as [H U S X R]. split; cbn [pcs entry next]; eauto.
    + intros i p n F G. destruct (nth_new _ _ _ _ F) as [K| ->]; [eauto|discriminate].
    + intros i j p q n F G K L. destruct (nth_new _ _ _ _ F) as [F'| ->]; [|discriminate]. destruct (nth_new _ _ _ _ G) as [G'| ->]; [|discriminate]. eauto.
    + intros i p n F G. destruct (nth_new _ _ _ _ F) as [K| ->]; [eauto|discriminate].
    + intros i j q n F G K. destruct (nth_new _ _ _ _ F) as [F'| ?]; [|discriminate]. destruct (nth_new _ _ _ _ G) as [G'| ->]; [|discriminate]. eauto.
  - destruct (nth_error (pcs s) i) as [p|] eqn:P; [|discriminate].
    assert (s' = match go false modes dflt i ok p s with Some x => x | None => s end) as -> by (rewrite E; auto). clear E.
    destruct p as [again|n| | |n|n|n r|n r|r]; cbn [go].
    + destruct ok; [destruct (entry s) as [e|] eqn:F|].
      * eapply finv_goto; eauto; destruct again; cbn; discriminate.
      * destruct I as [H U S X R].
        assert (forall j q n, nth_error (pcs s) j = Some q -> held q = Some n -> False) as V.
        { intros j q n G K. destruct (H _ _ _ G K) as (m & L & _). congruence. }
        assert (forall j q n, nth_error (pcs s) j = Some q -> socket q = Some n -> n <> next s) as V2.
        { intros j q n G K ->. specialize (S _ _ _ G K). lia. }
        split; cbn [pcs entry next].
        { intros j q n. rewrite (nth_put _ _ _ _ _ P). destruct (Nat.eqb_spec i j); intros G K; [|exfalso; eauto].
          assert (q = Listen (next s)) as -> by congruence. cbn in K. exists dflt. split; [congruence|reflexivity]. }
        { intros j k q r n. rewrite !(nth_put _ _ _ _ _ P). destruct (Nat.eqb_spec i j), (Nat.eqb_spec i k); intros G K L M; subst; auto.
          - assert (q = Listen (next s)) as -> by congruence. exfalso. cbn in L. eapply V2; eauto; congruence.
          - assert (r = Listen (next s)) as -> by congruence. exfalso. cbn in M. eapply V2; eauto; congruence.
          - eauto. }
        { intros j q n. rewrite (nth_put _ _ _ _ _ P). destruct (Nat.eqb_spec i j); intros G K.
          - assert (q = Listen (next s)) as -> by congruence. cbn in K. assert (n = next s) as -> by congruence. auto.
          - specialize (S _ _ _ G K). lia. }
        { intros n m G. assert (n = next s) as -> by congruence. auto. }
        { intros j k q n. rewrite !(nth_put _ _ _ _ _ P). destruct (Nat.eqb_spec i j), (Nat.eqb_spec i k); intros G K L; try congruence; eauto.
          apply n0. apply One; eapply starts; eauto 8. }
      * eapply finv_goto; eauto; cbn; discriminate.
    + cbn [release]. rewrite Bool.orb_false_r. destruct ok; [|eapply finv_goto; eauto; cbn; discriminate].
      destruct (N.eqb_spec (modes i) 0); eapply finv_goto; eauto; cbn; try discriminate; intros k K; split; try congruence.
      * intros m ->. unfold wanted. now rewrite (proj2 (N.eqb_eq _ _) e).
      * intros m ->. auto.
    + destruct (connect ok s) eqn:C; try (eapply finv_goto; eauto; cbn; discriminate).
      eapply finv_goto; eauto; try (cbn; discriminate). intros _ j r n F G.
      destruct (Nat.eq_dec i j) as [|NE]; auto. exfalso.
      unfold connect in C. destruct ok; [|discriminate]. destruct I as [H U S X R]. destruct (H _ _ _ F G) as (m & K & _). rewrite K in C.
      destruct (existsb (listens n) (pcs s)) eqn:L; [discriminate|].
      assert (listens n r = true) as M.
      { apply listens_iff. split; [now apply held_socket|]. intros k ->. apply NE, One; eapply starts; eauto 8. }
      assert (existsb (listens n) (pcs s) = true); [|congruence]. apply existsb_exists. exists r. split; auto. eapply nth_error_In; eauto.
    + destruct ok; [destruct (entry s) as [e|] eqn:F|]; try (eapply finv_goto; eauto; cbn; discriminate).
      apply finv_entry; [eapply finv_goto; eauto; cbn; discriminate| |discriminate].
      intros j q n. cbn [goto pcs]. rewrite (nth_put _ _ _ _ _ P). destruct (Nat.eqb_spec i j); intros G K.
      * assert (q = Bind true) as -> by congruence. discriminate.
      * destruct I as [H U S X R]. eauto.
    + assert (exists m, entry s = Some (Sock n m) /\ mode_at modes dflt i (Chmod n) m) as (m & F & G) by (destruct I as [H U S X R]; exact (H _ _ _ P eq_refl)).
      destruct ok; [|eapply finv_goto; eauto; cbn; try congruence; intros; split; auto].
      rewrite F. destruct I as [H U S X R].
      assert (forall j q k, nth_error (pcs s) j = Some q -> held q = Some k -> i = j) as V.
      { intros j q k K L. destruct (H _ _ _ K L) as (m' & M & _). assert (k = n) as -> by congruence.
        exact (U _ _ _ _ _ P K eq_refl (held_socket _ _ L)). }
      split; unfold with_entry, goto; cbn [pcs entry next].
      * intros j q k. rewrite (nth_put _ _ _ _ _ P). destruct (Nat.eqb_spec i j); intros K L; [|exfalso; eauto].
        subst j. assert (q = Serving n) as -> by congruence. cbn in L. exists (modes i). split; [congruence|].
        cbn. unfold wanted. destruct (N.eqb_spec (modes i) 0); [exfalso; apply G; auto|auto].
      * intros j k q r x. rewrite !(nth_put _ _ _ _ _ P). destruct (Nat.eqb_spec i j), (Nat.eqb_spec i k); intros K L M N; subst; auto.
        { assert (q = Serving n) as -> by congruence. cbn in M. exact (U _ _ _ _ _ P L M N). }
        { assert (r = Serving n) as -> by congruence. cbn in N. exact (U _ _ _ _ _ K P M N). }
        { eauto. }
      * intros j q k. rewrite (nth_put _ _ _ _ _ P). destruct (Nat.eqb_spec i j); intros K L; [|eauto].
        assert (q = Serving n) as -> by congruence. exact (S _ _ _ P L).
      * intros k x K. assert (k = n) as -> by congruence. exact (S _ _ _ P eq_refl).
      * intros j k q x. rewrite !(nth_put _ _ _ _ _ P). destruct (Nat.eqb_spec i j), (Nat.eqb_spec i k); intros K L M; try congruence; eauto.
        exact (R _ _ _ _ K P eq_refl).
    + auto.
    + assert (finv modes dflt (goto i (Close n r) s)) as J by (eapply finv_goto; eauto; cbn; try discriminate; auto).
      destruct ok; [|exact J]. destruct (entry s) as [e|] eqn:F; [|exact J].
      assert (finv modes dflt (with_entry None (goto i (Close n r) s))) as K; [|destruct e as [|c [|]]; auto].
      apply finv_entry; [exact J| |discriminate].
      intros j q k. cbn [goto pcs]. rewrite (nth_put _ _ _ _ _ P). destruct (Nat.eqb_spec i j); intros K L.
      * assert (q = Close n r) as -> by congruence. discriminate.
      * destruct I as [H U S X R]. apply n0. destruct (H _ _ _ P eq_refl) as (m & A & _). destruct (H _ _ _ K L) as (m' & B & _).
        assert (k = n) as -> by congruence. exact (U _ _ _ _ _ P K eq_refl (held_socket _ _ L)).
    + cbn [release]. eapply finv_goto; eauto; cbn; discriminate.
    + auto.
  - destruct (nth_error (pcs s) i) as [[| | | | |n| | |]|] eqn:P; try discriminate.
    assert (s' = goto i (Unlink n Stopped) s) as -> by congruence. eapply finv_goto; eauto; cbn; auto; discriminate.
  - destruct (nth_error (pcs s) i) as [p|] eqn:P; [|discriminate]. destruct (alive p); [|discriminate].
    assert (s' = goto i (Ended Died) s) as -> by (destruct (socket p); cbn [release] in E; congruence). eapply finv_goto; eauto; cbn; discriminate.
  - match type of E with Some (with_entry ?x s) = _ => assert (s' = with_entry x s) as -> by congruence end. cbn [hands_off] in O.
    apply finv_entry; auto.
    + intros j p n G K. destruct I as [H U S X R]. destruct (H _ _ _ G K) as (m & L & _). exact (O _ _ _ _ L G (held_socket _ _ K)).
    + intros n m G. destruct e as [[? ?]|]; discriminate.
Qed.
Lemma orderly_one modes dflt ls s : orderly false modes dflt ls s -> one_at_a_time s.
Proof. intros [e N|ls' s' a s'' H O E P]; auto. intros i j [p [F _]]. destruct i; discriminate. Qed.
Lemma finv_history modes dflt ls s : orderly false modes dflt ls s -> finv modes dflt s.
Proof.
  induction 1 as [e N|ls s a s' Hs IH O E _].
  - split; cbn; try (intros [|i]; discriminate). intros n m ->. destruct N.
  - exact (finv_step _ _ _ _ _ IH (orderly_one _ _ _ _ Hs) O E).
Qed.
Theorem file_one_owner : forall modes dflt ls s i j, orderly false modes dflt ls s -> serves s i ->
  reaches s i (wanted modes dflt i) /\ (serves s j -> j = i).
Proof.
  intros modes dflt ls s i j H [n E]. apply finv_history in H as [H U S X R].
  destruct (H _ _ _ E eq_refl) as (m & F & G). cbn in G. subst m. split.
  - exists n, (Serving n). split; auto.
  - intros [k K]. destruct (H _ _ _ K eq_refl) as (m & L & _). assert (k = n) as -> by congruence. exact (U _ _ _ _ _ K E eq_refl eq_refl).
Qed.

(** ** What a start comes to when nobody else is at work *)
Lemma nth_last {A} (l : list A) x : nth_error (l ++ [x]) (length l) = Some x.
Proof. rewrite nth_error_app2, Nat.sub_diag; auto. Qed.
Lemma put_last {A} (l : list A) x y : put (length l) y (l ++ [x]) = l ++ [y].
Proof. induction l as [|z l IH]; cbn; [auto|now rewrite IH]. Qed.
Definition quiet_start (modes : nat -> N) (abstract : bool) (i : nat) : list label :=
  New :: Go i true :: Go i true :: (if (modes i =? 0)%N || abstract then [] else [Go i true]).
Lemma start_free : forall abstract modes dflt s i, i = length (pcs s) -> entry s = None ->
  exists s', run abstract modes dflt (quiet_start modes abstract i) s = Some s' /\ serves s' i /\ reaches s' i (if abstract then dflt else wanted modes dflt i) /\
    (forall j, j <> i -> nth_error (pcs s') j = nth_error (pcs s) j).
Proof.
  intros abstract modes dflt [e n l] i -> E; cbn in E; subst e. unfold quiet_start, wanted. cbn [pcs].
  assert (forall y j, j <> length l -> nth_error (l ++ [y]) j = nth_error (A := pc) l j) as O.
  { intros y j H. destruct (Nat.lt_ge_cases j (length l)); [now rewrite nth_error_app1|].
    rewrite (proj2 (nth_error_None l j)) by auto. apply nth_error_None. rewrite app_length; cbn; lia. }
  destruct abstract, ((modes (length l) =? 0)%N) eqn:M; cbn [orb];
    repeat (cbn [run step pcs entry next go goto with_entry]; rewrite ?nth_last, ?put_last, ?M; cbn [orb]); eexists; (split; [reflexivity|]); unfold goto, with_entry, serves, reaches; cbn [pcs entry next]; rewrite ?put_last;
    (split; [rewrite nth_last; eauto|]); (split; [|eauto]);
    exists n, (Serving n); rewrite nth_last; auto.
Qed.
Lemma run_app abstract modes dflt l1 l2 s : run abstract modes dflt (l1 ++ l2) s = match run abstract modes dflt l1 s with Some s' => run abstract modes dflt l2 s' | None => None end.
Proof. revert s; induction l1 as [|a l1 IH]; intros s; cbn; auto. destruct (step abstract modes dflt a s); auto. Qed.

Lemma nobody_listens s n : nobody s -> existsb (listens n) (pcs s) = false.
Proof.
  intros H. destruct (existsb (listens n) (pcs s)) eqn:E; auto. apply existsb_exists in E as (p & I & L).
  apply In_nth_error in I as [i I]. destruct (H _ _ I) as [r ->]. discriminate.
Qed.
(** A start that finds something which refuses connections *)
Lemma start_stale modes dflt s i : i = length (pcs s) -> nobody s ->
  (exists n m, entry s = Some (Sock n m)) \/ (exists d, entry s = Some (Foreign Refused d)) ->
  exists ls s', alone i ls /\ run false modes dflt (New :: ls) s = Some s' /\ serves s' i /\ reaches s' i (wanted modes dflt i).
Proof.
  intros -> N E.
  assert (connect true (St (entry s) (next s) (pcs s ++ [Dial])) = Refused) as C.
  { unfold connect. cbn [entry pcs]. destruct E as [(n & m & ->)|(d & ->)]; auto. rewrite existsb_app, nobody_listens; auto. }
  assert (exists e, entry s = Some e) as [e F] by (destruct E as [(n & m & ->)|(d & ->)]; eauto).
  rewrite F in C. clear E N. destruct s as [en n l]. cbn [pcs entry next] in *. subst en.
  exists (Go (length l) true :: Go (length l) true :: Go (length l) true :: Go (length l) true :: Go (length l) true :: (if (modes (length l) =? 0)%N then [] else [Go (length l) true])).
  destruct ((modes (length l) =? 0)%N) eqn:M; cbn [orb];
    repeat (cbn [run step pcs entry next go orb]; unfold goto, with_entry; cbn [pcs entry next]; rewrite ?nth_last, ?put_last, ?M, ?C);
    eexists; (split; [cbn; auto 10|]); (split; [reflexivity|]); unfold serves, reaches; cbn [pcs entry next]; (split; [rewrite nth_last; eauto|]);
    eexists n, (Serving _); rewrite nth_last; unfold wanted; rewrite M; auto.
Qed.
Theorem stale_replaced : forall modes dflt s i, i = length (pcs s) -> nobody s -> (forall c d, entry s = Some (Foreign c d) -> c = Refused) ->
  exists ls s', alone i ls /\ run false modes dflt (New :: ls) s = Some s' /\ serves s' i /\ reaches s' i (wanted modes dflt i).
Proof.
  intros modes dflt s i L N H. destruct (entry s) as [[n m|c d]|] eqn:E.
  - apply start_stale; eauto.
  - assert (c = Refused) as -> by eauto. apply start_stale; eauto.
  - destruct (start_free false modes dflt s i L E) as (s' & R & S & T & _). unfold quiet_start in R.
    eexists; exists s'. split; [|split; [exact R|auto]]. destruct ((modes i =? 0)%N); cbn; auto 6.
Qed.
Theorem live_left : forall modes dflt s i, i = length (pcs s) -> (exists j m, reaches s j m) \/ (exists d, entry s = Some (Foreign Accepted d)) ->
  exists s', run false modes dflt [New; Go i true; Go i true] s = Some s' /\ ended s' i InUse /\ entry s' = entry s /\
    forall j, j <> i -> nth_error (pcs s') j = nth_error (pcs s) j.
Proof.
  intros modes dflt s i -> H.
  assert (connect true (St (entry s) (next s) (pcs s ++ [Dial])) = Accepted) as C.
  { unfold connect. cbn [entry pcs]. destruct H as [(j & m & n & p & -> & P & Q)|(d & ->)]; auto.
    rewrite existsb_app. assert (existsb (listens n) (pcs s) = true) as ->; auto.
    apply existsb_exists. exists p. split; [eapply nth_error_In; eauto|].
    destruct Q as [->|[->|(r & [->| ->])]]; cbn; apply Nat.eqb_refl. }
  assert (exists e, entry s = Some e) as [e F] by (destruct H as [(j & m & n & p & -> & _)|(d & ->)]; eauto).
  rewrite F in C. clear H. destruct s as [en n l]. cbn [pcs entry next] in *. subst en.
  repeat (cbn [run step pcs entry next go orb]; unfold goto, with_entry; cbn [pcs entry next]; rewrite ?nth_last, ?put_last, ?C).
  eexists; split; [reflexivity|]. unfold ended; cbn [pcs entry]. rewrite nth_last. repeat split; auto.
  intros j J. destruct (Nat.lt_ge_cases j (length l)); [now rewrite nth_error_app1|].
  rewrite (proj2 (nth_error_None l j)) by auto. apply nth_error_None. rewrite app_length; cbn; lia.
Qed.
Theorem stop_cleans : forall modes dflt ls s i, orderly false modes dflt ls s -> serves s i ->
  exists s', run false modes dflt [Stop i; Go i true; Go i true] s = Some s' /\ ended s' i Stopped /\ entry s' = None /\
    forall j, j <> i -> nth_error (pcs s') j = nth_error (pcs s) j.
Proof.
  intros modes dflt ls s i H [n E]. apply finv_history in H as [H U S X R]. destruct (H _ _ _ E eq_refl) as (m & F & _).
  assert (forall x, nth_error (put i x (pcs s)) i = Some x) as P.
  { intros x. rewrite (nth_put _ _ _ _ _ E), Nat.eqb_refl. auto. }
  assert (forall y x, nth_error (put i y (put i x (pcs s))) i = Some y) as P2.
  { intros y x. rewrite (nth_put _ _ _ _ _ (P x)), Nat.eqb_refl. auto. }
  cbn [run step]. rewrite E. unfold goto; cbn [pcs entry next]. rewrite P. cbn [go]. unfold goto, with_entry; cbn [pcs entry next]. rewrite F; cbn [pcs entry next]. rewrite P2.
  cbn [go release]. unfold goto; cbn [pcs entry next]. eexists. split; [reflexivity|]. unfold ended; cbn [pcs entry].
  rewrite (nth_put _ _ _ _ _ (P2 _ _)), Nat.eqb_refl. repeat split; auto.
  intros j J. rewrite (nth_put _ _ _ _ _ (P2 _ _)), (nth_put _ _ _ _ _ (P _)), (nth_put _ _ _ _ _ E).
  destruct (Nat.eqb_spec i j); congruence.
Qed.

(** ** What is not a stale socket is left alone, in any order *)
Definition harmless (p : pc) : Prop := match p with Bind false | Dial | Ended _ => True | _ => False end.
Theorem others_left : forall modes dflt c d ls s s', c <> Refused -> entry s = Some (Foreign c d) ->
  (forall i p, nth_error (pcs s) i = Some p -> exists r, p = Ended r) -> (forall e, ~ In (Env e) ls) ->
  run false modes dflt ls s = Some s' -> entry s' = entry s /\ forall i, ~ serves s' i.
Proof.
  intros modes dflt c d ls s s' C E N V R.
  assert (Forall harmless (pcs s)) as H.
  { apply Forall_forall. intros p I. apply In_nth_error in I as [i I]. destruct (N _ _ I) as [r ->]. exact Logic.I. }
  clear N. revert s E H R; induction ls as [|a ls IH]; intros s E H R.
  - cbn in R. assert (s' = s) as -> by congruence. split; auto. intros i [n F].
    rewrite Forall_forall in H. exact (H _ (nth_error_In _ _ F)).
  - cbn [run] in R. destruct (step false modes dflt a s) as [s1|] eqn:S; [|discriminate].
    assert (forall i q, harmless q -> Forall harmless (put i q (pcs s))) as P.
    { intros i q Q. clear -H Q. revert i; induction H; intros [|i]; cbn; auto. }
    assert (entry s1 = entry s /\ Forall harmless (pcs s1)) as [A B].
    { destruct a as [|i ok|i|i|e]; cbn [step] in S.
      - assert (s1 = St (entry s) (next s) (pcs s ++ [Bind false])) as -> by congruence. split; auto. cbn [pcs]. apply Forall_app; split; auto. repeat constructor.
      - destruct (nth_error (pcs s) i) as [p|] eqn:F; [|discriminate].
        assert (harmless p) as K by (rewrite Forall_forall in H; exact (H _ (nth_error_In _ _ F))).
        destruct p as [[|]|n| | |n|n|n r|n r|r]; try destruct K; cbn [go] in S; try discriminate.
        + rewrite E in S. destruct ok; (match type of S with Some ?x = _ => assert (s1 = x) as -> by congruence end); split; auto; apply P; exact Logic.I.
        + match type of S with Some ?x = _ => assert (s1 = x) as -> by congruence end. split; auto. apply P.
          unfold connect. destruct ok; [|exact Logic.I]. rewrite E. destruct c; try exact Logic.I. congruence.
      - destruct (nth_error (pcs s) i) as [[| | | | |n| | |]|] eqn:F; try discriminate. exfalso. rewrite Forall_forall in H. exact (H _ (nth_error_In _ _ F)).
      - destruct (nth_error (pcs s) i) as [p|] eqn:F; [|discriminate].
        assert (harmless p) as K by (rewrite Forall_forall in H; exact (H _ (nth_error_In _ _ F))).
        destruct p as [[|]|n| | |n|n|n r|n r|r]; try destruct K; cbn in S; try discriminate;
          (match type of S with Some ?x = _ => assert (s1 = x) as -> by congruence end); split; auto; apply P; exact Logic.I.
      - exfalso. eapply V. left. reflexivity. }
    rewrite <- A. apply IH; auto; [|congruence]. intros e I. eapply V. right; eauto.
Qed.

(** ** What goes wrong *)
Lemma any_order_run abstract modes dflt e ls s : match e with Some (Sock _ _) => False | _ => True end -> (forall x, ~ In (Env x) ls) ->
  run abstract modes dflt ls (init e) = Some s -> any_order abstract modes dflt ls s.
Proof.
  intros E. revert s. induction ls as [|a ls IH] using rev_ind; intros s V R.
  - cbn in R. assert (s = init e) as -> by congruence. now apply h_nil.
  - rewrite run_app in R. destruct (run abstract modes dflt ls (init e)) as [s1|] eqn:F; [|discriminate]. cbn in R.
    destruct (step abstract modes dflt a s1) as [s2|] eqn:S; [|discriminate]. assert (s = s2) as -> by congruence.
    apply (h_snoc _ _ _ _ _ s1); auto.
    + apply IH; auto. intros x I. apply (V x), in_or_app; auto.
    + destruct a; cbn; auto. exfalso. apply (V e0), in_or_app. right; left; auto.
Qed.
Ltac no_envs := let x := fresh in let H := fresh in intros x H; repeat (destruct H as [H|H]; [discriminate|]); destruct H.
Definition race : list label :=
  [New; New; Go 0 true; Go 1 true; Go 0 true; Go 1 true; Go 1 true; Go 1 true; Go 1 true; Go 0 true; Go 0 true; Go 0 true].
Theorem race_both_serve : exists ls s, any_order false (fun _ => 0%N) 493 ls s /\ serves s 0 /\ serves s 1 /\ reaches s 0 493 /\ ~ exists m, reaches s 1 m.
Proof.
  exists race, (St (Some (Sock 1 493)) 2 [Serving 1; Serving 0]). repeat split.
  - apply (any_order_run _ _ _ (Some (Foreign Refused false))); [exact I|no_envs|vm_compute; reflexivity].
  - now exists 1.
  - now exists 0.
  - exists 1, (Serving 1). auto.
  - intros (m & n & p & A & B & C). cbn in A, B. assert (n = 1) as -> by congruence. assert (p = Serving 0) as -> by congruence.
    destruct C as [?|[?|(r & [?|?])]]; discriminate.
Qed.
Definition window : list label :=
  [New; New; Go 0 true; Go 1 true; Go 1 true; Go 1 true; Go 1 true; Go 1 true; Go 0 true].
Theorem window_both_serve : exists ls s, any_order false (fun _ => 0%N) 493 ls s /\ entry (init None) = None /\
  (exists s1, run false (fun _ => 0%N) 493 ls (init None) = Some s1 /\ s1 = s) /\ serves s 0 /\ serves s 1 /\ ~ exists m, reaches s 0 m.
Proof.
  exists window, (St (Some (Sock 1 493)) 2 [Serving 0; Serving 1]). repeat split.
  - apply (any_order_run _ _ _ None); [exact I|no_envs|vm_compute; reflexivity].
  - eexists; split; [vm_compute; reflexivity|reflexivity].
  - now exists 0.
  - now exists 1.
  - intros (m & n & p & A & B & C). cbn in A, B. assert (n = 1) as -> by congruence. assert (p = Serving 0) as -> by congruence.
    destruct C as [?|[?|(r & [?|?])]]; discriminate.
Qed.
(** The file is removed by hand, another server starts, the first one is stopped *)
Definition removed : list label :=
  [New; Go 0 true; Go 0 true; Env None; New; Go 1 true; Go 1 true; Stop 0; Go 0 true; Go 0 true].
Theorem removed_unreachable : exists ls s, run false (fun _ => 0%N) 493 ls (init None) = Some s /\ (forall c, In (Env c) ls -> c = None) /\
  ended s 0 Stopped /\ serves s 1 /\ entry s = None.
Proof.
  exists removed, (St None 2 [Ended Stopped; Serving 1]). split; [vm_compute; reflexivity|]. repeat split.
  - intros c H. repeat (destruct H as [H|H]; [congruence|]). destruct H.
  - now exists 1.
Qed.
Lemma orderly_run_one : forall modes dflt e ls s, match e with Some (Sock _ _) => False | _ => True end -> (forall x, ~ In (Env x) ls) ->
  (forall i j, In New (firstn i ls) -> nth_error ls j = Some New -> i <= j -> False) -> run false modes dflt ls (init e) = Some s -> orderly false modes dflt ls s.
Proof.
  intros modes dflt e ls. induction ls as [|a ls IH] using rev_ind; intros s E V W R.
  - cbn in R. assert (s = init e) as -> by congruence. now apply h_nil.
  - pose proof R as R0. rewrite run_app in R. destruct (run false modes dflt ls (init e)) as [s1|] eqn:F; [|discriminate]. cbn in R.
    destruct (step false modes dflt a s1) as [s2|] eqn:S; [|discriminate]. assert (s = s2) as -> by congruence.
    apply (h_snoc _ _ _ _ _ s1); auto.
    + apply IH; auto.
      * intros x I. apply (V x), in_or_app; auto.
      * intros i j I N L. apply (W i j); auto; [|rewrite nth_error_app1; auto; apply nth_error_Some; congruence].
        rewrite firstn_app. apply in_or_app; auto.
    + destruct a; cbn; auto. exfalso. apply (V e0), in_or_app. right; left; auto.
    + assert (length (pcs s2) <= 1) as L.
      { clear -R0 W. assert (forall ls s0 s2, (forall i j, In New (firstn i ls) -> nth_error ls j = Some New -> i <= j -> False) ->
          run false modes dflt ls s0 = Some s2 -> length (pcs s2) <= length (pcs s0) + 1 /\ (~ In New ls -> length (pcs s2) = length (pcs s0))) as G.
        { clear. induction ls as [|a ls IH]; intros s0 s2 W R; cbn [run] in R.
          - assert (s2 = s0) as -> by congruence. split; auto. lia.
          - destruct (step false modes dflt a s0) as [s1|] eqn:S; [|discriminate].
            assert (forall i j, In New (firstn i ls) -> nth_error ls j = Some New -> i <= j -> False) as W'.
            { intros i j I N L. apply (W (Datatypes.S i) (Datatypes.S j)); cbn; auto. lia. }
            destruct (IH _ _ W' R) as [A B].
            assert (forall i (x : pc) l, length (put i x l) = length l) as P.
            { intros i x l; revert i; induction l as [|y l IHl]; intros [|i]; cbn; auto. }
            assert (a <> New -> length (pcs s1) = length (pcs s0)) as C.
            { intros N. destruct a as [|i ok|i|i|e]; cbn [step] in S; [congruence| | | |].
              - destruct (nth_error (pcs s0) i) as [p|]; [|discriminate].
                destruct p as [[|]|n| | |n|n|n r|n r|r]; cbn [go] in S; try discriminate;
                  match type of S with Some ?x = _ => assert (s1 = x) as -> by congruence end; unfold release, goto, with_entry; cbn [orb];
                  repeat (match goal with |- context [match ?x with _ => _ end] => destruct x end); cbn [pcs]; apply P.
              - destruct (nth_error (pcs s0) i) as [[| | | | |n| | |]|]; try discriminate.
                match type of S with Some ?x = _ => assert (s1 = x) as -> by congruence end. cbn [goto pcs]. apply P.
              - destruct (nth_error (pcs s0) i) as [p|]; [|discriminate]. destruct (alive p); [|discriminate].
                match type of S with Some ?x = _ => assert (s1 = x) as -> by congruence end. destruct (socket p); cbn [release goto pcs]; apply P.
              - match type of S with Some ?x = _ => assert (s1 = x) as -> by congruence end. reflexivity. }
            assert (a = New -> ~ In New ls) as D.
            { intros -> I. apply In_nth_error in I as [j I]. apply (W 1 (Datatypes.S j)); cbn; auto. lia. }
            assert (a = New -> length (pcs s1) = length (pcs s0) + 1) as D2.
            { intros ->. cbn in S. assert (s1 = St (entry s0) (next s0) (pcs s0 ++ [Bind false])) as -> by congruence. cbn [pcs]. now rewrite app_length. }
            assert (a = New \/ a <> New) as [X|X] by (destruct a; auto; right; discriminate).
            + rewrite (B (D X)), (D2 X). split; auto. intros N. exfalso. apply N. left; auto.
            + rewrite (C X) in A, B. split; auto. intros N. apply B. intros I. apply N. now right. }
        destruct (G _ _ _ W R0) as [A _]. cbn in A. exact A. }
      intros i j (p & P & _) (q & Q & _).
      assert (i < length (pcs s2)) by (apply nth_error_Some; congruence). assert (j < length (pcs s2)) by (apply nth_error_Some; congruence). lia.
Qed.
Ltac one_new := let i := fresh in let j := fresh in let N := fresh in intros i j; destruct i as [|i]; [intros []|]; intros _; destruct j as [|j]; [lia|]; cbn [nth_error];
  intros N _; apply nth_error_In in N; repeat (destruct N as [N|N]; [discriminate|]); destruct N.
Theorem directory_removed : exists ls s, orderly false (fun _ => 0%N) 493 ls s /\
  run false (fun _ => 0%N) 493 ls (init (Some (Foreign Refused true))) = Some s /\ serves s 0.
Proof.
  exists [New; Go 0 true; Go 0 true; Go 0 true; Go 0 true; Go 0 true], (St (Some (Sock 0 493)) 1 [Serving 0]).
  assert (run false (fun _ => 0%N) 493 [New; Go 0 true; Go 0 true; Go 0 true; Go 0 true; Go 0 true] (init (Some (Foreign Refused true))) = Some (St (Some (Sock 0 493)) 1 [Serving 0])) as R by (vm_compute; reflexivity).
  split; [|split; [exact R|now exists 0]].
  apply (orderly_run_one _ _ (Some (Foreign Refused true))); [exact I|no_envs|one_new|exact R].
Qed.
Theorem open_before_chmod : exists ls s, orderly false (fun _ => 384%N) 493 ls s /\ wanted (fun _ => 384%N) 493 0 = 384%N /\ reaches s 0 493.
Proof.
  exists [New; Go 0 true; Go 0 true], (St (Some (Sock 0 493)) 1 [Chmod 0]).
  split; [|split; [reflexivity|exists 0, (Chmod 0); cbn; auto]].
  apply (orderly_run_one _ _ None); [exact I|no_envs|one_new|vm_compute; reflexivity].
Qed.

(** A server makes at most eight steps *)
Definition rank (p : pc) : nat :=
  match p with
  | Bind false => 8 | Dial => 7 | Remove => 6 | Bind true => 5 | Listen _ => 4 | Chmod _ => 3 | Serving _ => 2 | Unlink _ _ => 2 | Close _ _ => 1 | Ended _ => 0
  end.
Definition rank_at (s : st) (i : nat) : nat := match nth_error (pcs s) i with Some p => rank p | None => 8 end.
Lemma release_pcs ab n s : pcs (release ab n s) = pcs s.
Proof. unfold release. destruct ab, (entry s) as [[m ?|? ?]|]; try reflexivity. destruct (n =? m); reflexivity. Qed.
Lemma nth_put_any {A} i j (x : A) l : nth_error (put i x l) j = if i =? j then match nth_error l j with Some _ => Some x | None => None end else nth_error l j.
Proof.
  revert i j. induction l as [|y l IH]; intros [|i] [|j]; cbn; try reflexivity.
  - now destruct (i =? j).
  - apply IH.
Qed.
Lemma rank_put s s' i p q : pcs s' = put i q (pcs s) -> nth_error (pcs s) i = Some p ->
  (forall j, j <> i -> rank_at s' j = rank_at s j) /\ rank_at s i = rank p /\ rank_at s' i = rank q.
Proof.
  intros E H. unfold rank_at. rewrite E. split; [|split].
  - intros j Hj. rewrite nth_put_any. destruct (i =? j) eqn:X; [apply Nat.eqb_eq in X; congruence|reflexivity].
  - now rewrite H.
  - now rewrite nth_put_any, Nat.eqb_refl, H.
Qed.
Lemma go_put ab modes dflt i ok p s s' : go ab modes dflt i ok p s = Some s' -> exists q, pcs s' = put i q (pcs s) /\ rank q < rank p.
Proof.
  destruct p as [again|n| | |n|n|n r|n r|r]; cbn [go]; try discriminate; intros E; injection E as <-.
  - destruct ok; [|exists (Ended Failed); destruct again; cbn; split; [reflexivity|lia|reflexivity|lia]].
    destruct (entry s); [|exists (Listen (next s)); destruct again; cbn; split; (reflexivity || lia)].
    destruct ab, again; eexists; (split; [reflexivity|cbn; lia]).
  - destruct ok; [|exists (Ended Failed); rewrite release_pcs; cbn; split; [reflexivity|lia]].
    destruct (_ || _); eexists; (split; [reflexivity|cbn; lia]).
  - destruct (connect ok s); eexists; (split; [reflexivity|cbn; lia]).
  - destruct ok, (entry s); eexists; (split; [reflexivity|cbn; lia]).
  - destruct ok, (entry s) as [[? ?|? ?]|]; eexists; (split; [reflexivity|cbn; lia]).
  - exists (Close n r). split; [|cbn; lia]. destruct ab, ok, (entry s) as [[? ?|? []]|]; reflexivity.
  - exists (Ended r). rewrite release_pcs. split; [reflexivity|cbn; lia].
Qed.
Lemma step_rank ab modes dflt a s s' i : step ab modes dflt a s = Some s' ->
  rank_at s' i + steps_of i [a] <= rank_at s i.
Proof.
  destruct a as [|j ok|j|j|e]; cbn [step steps_of].
  - intros E. injection E as <-. unfold rank_at. cbn [pcs]. destruct (Nat.lt_ge_cases i (length (pcs s))) as [L|L].
    + rewrite nth_error_app1 by exact L. lia.
    + rewrite nth_error_app2 by exact L. apply nth_error_None in L. rewrite L. destruct (i - length (pcs s)) as [|[|?]]; cbn; lia.
  - destruct (nth_error (pcs s) j) as [p|] eqn:H; [|discriminate]. intros E. apply go_put in E as (q & E & R).
    destruct (rank_put s s' j p q E H) as (O & R1 & R2). destruct (i =? j) eqn:X.
    + apply Nat.eqb_eq in X as ->. rewrite R1, R2. lia.
    + apply Nat.eqb_neq in X. rewrite (O i X). lia.
  - destruct (nth_error (pcs s) j) as [[]|] eqn:H; try discriminate. intros E. injection E as <-.
    destruct (rank_put s (goto j (Unlink ino Stopped) s) j _ (Unlink ino Stopped) eq_refl H) as (O & R1 & R2).
    destruct (Nat.eq_dec i j) as [->|X]; [rewrite R1, R2; cbn; lia|rewrite (O i X); lia].
  - destruct (nth_error (pcs s) j) as [p|] eqn:H; [|discriminate]. destruct (alive p); [|discriminate]. intros E.
    assert (pcs s' = put j (Ended Died) (pcs s)) as E' by (injection E as <-; destruct (socket p); [apply release_pcs|reflexivity]).
    destruct (rank_put s s' j p _ E' H) as (O & R1 & R2).
    destruct (Nat.eq_dec i j) as [->|X]; [rewrite R1, R2; cbn; lia|rewrite (O i X); lia].
  - intros E. injection E as <-. unfold rank_at. cbn. lia.
Qed.
Lemma start_ends ab modes dflt ls s s' i : length (pcs s) <= i -> run ab modes dflt ls s = Some s' -> steps_of i ls <= 8.
Proof.
  intros L E. enough (steps_of i ls <= rank_at s i) by (unfold rank_at in *; apply nth_error_None in L; rewrite L in *; lia).
  clear L. revert s E. induction ls as [|a ls IH]; intros s E; cbn [run] in E; [cbn; lia|].
  destruct (step ab modes dflt a s) as [s1|] eqn:X; [|discriminate]. apply IH in E. apply (step_rank _ _ _ _ _ _ i) in X.
  destruct a; cbn [steps_of] in *; lia.
Qed.
(** None of its steps waits: a server that neither serves nor is at its end can go on *)
Lemma start_goes ab modes dflt s i p ok : nth_error (pcs s) i = Some p -> (forall n, p <> Serving n) -> (forall r, p <> Ended r) ->
  exists s', step ab modes dflt (Go i ok) s = Some s'.
Proof.
  intros H A B. cbn [step]. rewrite H. destruct p; cbn [go]; eauto; exfalso; [eapply A|eapply B]; reflexivity.
Qed.
Lemma server_ends ab modes dflt ls s s' i : length (pcs s) <= i -> run ab modes dflt ls s = Some s' -> steps_of i ls <= 8 /\
  ((exists p, nth_error (pcs s') i = Some p) -> serves s' i \/ (exists r, ended s' i r) \/ forall ok, exists s2, step ab modes dflt (Go i ok) s' = Some s2).
Proof.
  intros L E. split; [eapply start_ends; eassumption|]. intros [p H].
  destruct p as [ | | | | | n | | |r] eqn:X; try (right; right; intros ok; eapply start_goes; [exact H| |]; congruence).
  - left. now exists n.
  - right. left. now exists r.
Qed.
