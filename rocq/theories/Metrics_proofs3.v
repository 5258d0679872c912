(** Proofs about counters: the groups *)
From Coq Require Import Permutation.
From Verif Require Import Base Bytes Dns Metrics_model Metrics_spec Metrics_proofs Metrics_proofs2.
From Verif Require Import Groups_model Groups_spec Groups_proofs.
Local Open Scope string_scope.
Local Open Scope bool_scope.
Local Open Scope nat_scope.

Section Groups.
Variable name : nat -> string.
Notation is k := (fun i => String.eqb k (name i)).

Lemma last_sent_snoc t past e : last_sent t (past ++ [e])%list None = match e with Sent t' i => if Nat.eqb t' t then Some i else last_sent t past None | _ => last_sent t past None end.
Proof. rewrite last_sent_app. destruct e; reflexivity. Qed.
Lemma knows_set {S} (pcs : S -> nat -> pc) past s s' e t p :
  knows pcs past s -> (forall u, pcs s' u = setpc (pcs s) t p u) ->
  (match e with Sent t' i => t' = t /\ match p with Waiting _ i' => i' = i | _ => False end | _ => match p with Waiting _ _ => False | _ => True end end) -> knows pcs (past ++ [e])%list s'.
Proof.
  intros K E P u i idx W. rewrite E in W. rewrite last_sent_snoc. unfold setpc in W. destruct (Nat.eqb_spec u t) as [->|N].
  - subst p. destruct e; try contradiction. destruct P as (-> & ->). rewrite Nat.eqb_refl. reflexivity.
  - destruct e; try exact (K u i idx W). destruct P as (-> & _). destruct (Nat.eqb_spec t u); [congruence|exact (K u i idx W)].
Qed.
Lemma knows_same {S} (pcs : S -> nat -> pc) past s s' e : knows pcs past s -> (forall u, pcs s' u = pcs s u) -> (match e with Sent _ _ => False | _ => True end) -> knows pcs (past ++ [e])%list s'.
Proof. intros K E P u i idx W. rewrite E in W. rewrite last_sent_snoc. destruct e; try exact (K u i idx W). contradiction. Qed.
Lemma head_not n i r : match head n i r with Waiting _ _ => False | _ => True end.
Proof. unfold head. destruct (Nat.ltb i n); exact I. Qed.
Ltac inv E := repeat match type of E with
  | match ?x with _ => _ end = Some _ => destruct x eqn:?; try discriminate
  end; injection E as <-.

Lemma blamed_reply bad past t r i : last_sent t past None = Some i -> blamed bad past [Reply t r] = if bad r then [i] else [].
Proof. intros L. cbn [blamed]. rewrite L. destruct (bad r); reflexivity. Qed.

(** ** Round-robin *)
Lemma rr_knows n past s e s' : knows g_pc past s -> rr_step n s e = Some s' -> knows g_pc (past ++ [e])%list s'.
Proof.
  intros K E. destruct e; cbn [rr_step] in E; try discriminate; inv E; (eapply knows_set; [exact K|intros u; reflexivity|]); cbn; auto.
Qed.
Lemma rr_count n l s : exec (rr_step n) g_init l = Some s -> forall k,
  times ("route", k) (exec_bumps (rr_step n) (rr_bumps name) g_init l) = number (is k) (sents l) /\
  times ("failure", k) (exec_bumps (rr_step n) (rr_bumps name) g_init l) = number (is k) (blamed is_err [] l).
Proof.
  apply (machine_count name (rr_step n) (rr_bumps name) g_pc is_err).
  - intros past s0 e s'. apply rr_knows.
  - intros s0 e s' k E. destruct e; cbn [rr_step rr_bumps sents] in *; try discriminate; rewrite ?number_one.
    + apply named_times_route.
    + destruct (g_pc s0 t); try discriminate. destruct (is_err r); reflexivity.
  - intros past s0 e s' k K E. destruct e; cbn [rr_step rr_bumps] in *; try discriminate; [reflexivity|].
    destruct (g_pc s0 t) eqn:P; try discriminate. rewrite (blamed_reply _ _ _ _ _ (K _ _ _ P)). destruct (is_err r); [|reflexivity]. rewrite number_one. apply named_times_failure.
  - intros t i idx W. discriminate.
Qed.

Section Fail.
Variable n : nat.
Variable good : result -> bool.
Definition badr (r : result) : bool := negb (good r).

(** ** Fail-rotate *)
Lemma fr_knows past s e s' : knows g_pc past s -> fr_step n good s e = Some s' -> knows g_pc (past ++ [e])%list s'.
Proof.
  intros K E. destruct e; cbn [fr_step] in E; try discriminate; inv E; (eapply knows_set; [exact K|intros u; reflexivity|]); try apply head_not; cbn; auto.
  destruct (good r); exact I.
Qed.
Lemma fr_count l s : exec (fr_step n good) g_init l = Some s -> forall k,
  times ("route", k) (exec_bumps (fr_step n good) (fr_bumps name good) g_init l) = number (is k) (sents l) /\
  times ("failure", k) (exec_bumps (fr_step n good) (fr_bumps name good) g_init l) = number (is k) (blamed badr [] l).
Proof.
  apply (machine_count name (fr_step n good) (fr_bumps name good) g_pc badr).
  - intros past s0 e s'. apply fr_knows.
  - intros s0 e s' k E. destruct e; cbn [fr_step fr_bumps sents] in *; try discriminate; rewrite ?number_one; try reflexivity.
    + apply named_times_route.
    + destruct (g_pc s0 t); try discriminate. destruct (good r); reflexivity.
    + destruct (g_pc s0 t); try discriminate. destruct (Nat.eqb _ _); reflexivity.
  - intros past s0 e s' k K E. destruct e; cbn [fr_step fr_bumps] in *; try discriminate; try reflexivity.
    + destruct (g_pc s0 t) eqn:P; try discriminate. rewrite (blamed_reply _ _ _ _ _ (K _ _ _ P)). unfold badr. destruct (good r); cbn [negb]; [reflexivity|]. rewrite number_one. apply named_times_failure.
    + destruct (g_pc s0 t); try discriminate. destruct (Nat.eqb _ _); reflexivity.
  - intros t i idx W. discriminate.
Qed.
(** The active resolver is told by the counter. *)
Lemma fr_failover_gen l : forall s s', exec (fr_step n good) s l = Some s' -> g_active s < n ->
  g_active s' = (g_active s + times (int "failover") (exec_bumps (fr_step n good) (fr_bumps name good) s l)) mod n.
Proof.
  induction l as [|e l IH]; intros s s' E A; cbn [exec exec_bumps] in *.
  - injection E as <-. rewrite times_nil, Nat.add_0_r. symmetry. apply Nat.mod_small, A.
  - destruct (fr_step n good s e) as [s1|] eqn:T; [|discriminate]. rewrite times_app.
    assert (H : g_active s1 < n /\ g_active s1 = (g_active s + times (int "failover") (fr_bumps name good s e)) mod n).
    { destruct e; cbn [fr_step fr_bumps] in *; try discriminate.
      - inv T. cbn. rewrite Nat.add_0_r, Nat.mod_small; auto.
      - inv T. replace (times _ [route name idx]) with 0 by reflexivity. cbn. rewrite Nat.add_0_r, Nat.mod_small; auto.
      - destruct (g_pc s t); try discriminate. injection T as <-. replace (times _ _) with 0 by (destruct (good r); reflexivity). cbn. rewrite Nat.add_0_r, Nat.mod_small; auto.
      - destruct (g_pc s t); try discriminate. injection T as <-. cbn [g_active]. destruct (Nat.eqb idx (g_active s)).
        + replace (times _ _) with 1 by reflexivity. split; [apply Nat.mod_upper_bound; lia|reflexivity].
        + replace (times _ _) with 0 by reflexivity. rewrite Nat.add_0_r, Nat.mod_small; auto. }
    destruct H as (H & Hm). rewrite (IH s1 s' E H), Hm. rewrite Nat.add_mod_idemp_l by lia. f_equal. lia.
Qed.
Lemma fr_failover l s t i s' : 0 < n -> exec (fr_step n good) g_init l = Some s -> fr_step n good s (Sent t i) = Some s' ->
  i = times (int "failover") (exec_bumps (fr_step n good) (fr_bumps name good) g_init l) mod n.
Proof.
  intros N E T. pose proof (fr_failover_gen l g_init s E N) as F. cbn [g_active g_init] in F. rewrite Nat.add_0_l in F. rewrite <- F. cbn [fr_step] in T. destruct (g_pc s t); try discriminate.
  destruct (Nat.eqb_spec i (g_active s)); [assumption|discriminate].
Qed.

(** ** Fail-back *)
Variable resetAfter : Z.
Notation bstep := (fb_step n good resetAfter).
Notation bbumps := (fb_bumps name good resetAfter).
Lemma fb_knows past s e s' : knows fb_pc past s -> bstep s e = Some s' -> knows fb_pc (past ++ [e])%list s'.
Proof.
  intros K E. destruct e; cbn [fb_step] in E; try discriminate; inv E;
    (first [eapply knows_set; [exact K|intros u; reflexivity|]; try apply head_not; cbn; auto; fail | eapply knows_set; [exact K|intros u; reflexivity|]; destruct (good r); exact I
           | eapply knows_same; [exact K|intros u; reflexivity|exact I]]).
Qed.
Lemma fb_count l s : exec bstep fb_init l = Some s -> forall k,
  times ("route", k) (exec_bumps bstep bbumps fb_init l) = number (is k) (sents l) /\
  times ("failure", k) (exec_bumps bstep bbumps fb_init l) = number (is k) (blamed badr [] l).
Proof.
  apply (machine_count name bstep bbumps fb_pc badr).
  - intros past s0 e s'. apply fb_knows.
  - intros s0 e s' k E. destruct e; cbn [fb_bumps sents] in *; rewrite ?number_one; try reflexivity.
    + apply named_times_route.
    + destruct (fb_pc s0 t); try reflexivity. destruct (good r); reflexivity.
    + destruct (fb_pc s0 t); try reflexivity. destruct (_ || _); reflexivity.
  - intros past s0 e s' k K E. destruct e; cbn [fb_bumps] in *; try reflexivity.
    + cbn [fb_step] in E. destruct (fb_pc s0 t) eqn:P; try discriminate. rewrite (blamed_reply _ _ _ _ _ (K _ _ _ P)). unfold badr. destruct (good r); cbn [negb]; [reflexivity|]. rewrite number_one. apply named_times_failure.
    + destruct (fb_pc s0 t); try reflexivity. destruct (_ || _); reflexivity.
  - intros t i idx W. discriminate.
Qed.
Lemma fb_gauge_gen l : 0 < n -> resetAfter <> 0%Z -> forall s s', fb_active s < n -> exec bstep s l = Some s' ->
  fb_active s' < n /\ exec_gauge bstep (fb_gauge n resetAfter) s l (Z.of_nat n - Z.of_nat (fb_active s)) = (Z.of_nat n - Z.of_nat (fb_active s'))%Z.
Proof.
  intros N RA. induction l as [|e l IH]; intros s s' A E; cbn [exec exec_gauge] in *; [injection E as <-; split; [exact A|reflexivity]|].
  destruct (bstep s e) as [s1|] eqn:T; [|discriminate].
  assert (H : fb_active s1 < n /\ fb_gauge n resetAfter s s1 e (Z.of_nat n - Z.of_nat (fb_active s)) = (Z.of_nat n - Z.of_nat (fb_active s1))%Z).
  { destruct e; cbn [fb_step fb_gauge] in *; try discriminate; try (inv T; split; [exact A|reflexivity]).
    - destruct (fb_pc s t); try discriminate. destruct (_ || _); injection T as <-; cbn [fb_active]; [split; [exact A|reflexivity]|]. split; [apply Nat.mod_upper_bound; lia|reflexivity].
    - inv T. cbn [fb_active]. split; lia.
    - destruct (fb_timer s); try discriminate; destruct (fb_token s); try discriminate; injection T as <-; split; [exact A|reflexivity|exact A|reflexivity]. }
  destruct H as (H & ->). apply IH; assumption.
Qed.
Lemma fb_available l s t i s' : 0 < n -> resetAfter <> 0%Z -> exec bstep fb_init l = Some s -> bstep s (Sent t i) = Some s' ->
  exec_gauge bstep (fb_gauge n resetAfter) fb_init l (Z.of_nat n) = (Z.of_nat n - Z.of_nat i)%Z /\ i < n.
Proof.
  intros N RA E T. destruct (fb_gauge_gen l N RA fb_init s N E) as (A & G). cbn [fb_step] in T. destruct (fb_pc s t); try discriminate.
  destruct (Z.eqb_spec resetAfter 0); [contradiction|]. destruct (Nat.eqb_spec i (fb_active s)) as [->|]; [|discriminate].
  cbn [fb_active fb_init] in G. rewrite Z.sub_0_r in G. auto.
Qed.
Definition no_fire (l : list gevent) : Prop := Forall (fun e => e <> TimerFire) l.
Lemma fb_failover_gen l : 0 < n -> resetAfter <> 0%Z -> forall s s', no_fire l -> fb_active s < n -> exec bstep s l = Some s' ->
  fb_active s' = (fb_active s + times (int "failover") (exec_bumps bstep bbumps s l)) mod n.
Proof.
  intros N RA. induction l as [|e l IH]; intros s s' NF A E; cbn [exec exec_bumps] in *.
  - injection E as <-. rewrite times_nil, Nat.add_0_r. symmetry. apply Nat.mod_small, A.
  - inversion NF as [|e' l' NE NF']; subst. destruct (bstep s e) as [s1|] eqn:T; [|discriminate]. rewrite times_app.
    assert (H : fb_active s1 < n /\ fb_active s1 = (fb_active s + times (int "failover") (bbumps s e)) mod n).
    { assert (Z0 : fb_active s1 = fb_active s -> times (int "failover") (bbumps s e) = 0 -> fb_active s1 < n /\ fb_active s1 = (fb_active s + times (int "failover") (bbumps s e)) mod n).
      { intros -> ->. rewrite Nat.add_0_r, Nat.mod_small; auto. }
      destruct e; cbn [fb_step] in T; try discriminate; try congruence; try (inv T; apply Z0; reflexivity); cbn [fb_bumps] in *.
      - destruct (fb_pc s t); try discriminate. injection T as <-. apply Z0; [reflexivity|destruct (good r); reflexivity].
      - destruct (fb_pc s t); try discriminate. destruct (_ || _); injection T as <-; [apply Z0; reflexivity|]. cbn [fb_active]. replace (times _ _) with 1 by reflexivity. split; [apply Nat.mod_upper_bound; lia|reflexivity]. }
    destruct H as (H & Hm). rewrite (IH s1 s' NF' H E), Hm. rewrite Nat.add_mod_idemp_l by lia. f_equal. lia.
Qed.
Lemma exec_bumps_app {S} (step : S -> gevent -> option S) bumps l1 : forall s s1 l2, exec step s l1 = Some s1 ->
  exec_bumps step bumps s (l1 ++ l2)%list = (exec_bumps step bumps s l1 ++ exec_bumps step bumps s1 l2)%list.
Proof.
  induction l1 as [|e l1 IH]; intros s s1 l2 E; cbn [exec app exec_bumps] in *; [injection E as <-; reflexivity|].
  destruct (step s e) as [s'|]; [|discriminate]. rewrite (IH s' s1 l2 E). apply app_assoc.
Qed.
Lemma fb_failover l1 l2 s t i s' : 0 < n -> resetAfter <> 0%Z -> (l1 = [] \/ exists l0, l1 = (l0 ++ [TimerFire])%list) -> no_fire l2 ->
  exec bstep fb_init (l1 ++ l2)%list = Some s -> bstep s (Sent t i) = Some s' ->
  i = (times (int "failover") (exec_bumps bstep bbumps fb_init (l1 ++ l2)%list) - times (int "failover") (exec_bumps bstep bbumps fb_init l1)) mod n.
Proof.
  intros N RA L1 NF E T. rewrite exec_app in E. destruct (exec bstep fb_init l1) as [s1|] eqn:E1; [|discriminate].
  rewrite (exec_bumps_app _ _ _ _ _ _ E1), times_app.
  assert (A : fb_active s1 = 0).
  { destruct L1 as [->|(l0 & ->)]; [injection E1 as <-; reflexivity|]. rewrite exec_app in E1. destruct (exec bstep fb_init l0) as [s0|]; [|discriminate]. cbn [exec fb_step] in E1.
    destruct (fb_timer s0); try discriminate. destruct (Z.leb _ _); [|discriminate]. injection E1 as <-. reflexivity. }
  pose proof (fb_failover_gen l2 N RA s1 s NF ltac:(lia) E) as F. rewrite A, Nat.add_0_l in F. replace (_ + _ - _) with (times (int "failover") (exec_bumps bstep bbumps s1 l2)) by lia. rewrite <- F.
  cbn [fb_step] in T. destruct (fb_pc s t); try discriminate. destruct (Z.eqb_spec resetAfter 0); [contradiction|]. destruct (Nat.eqb_spec i (fb_active s)); [assumption|discriminate].
Qed.
Lemma fb_noreset l : resetAfter = 0%Z -> forall s s' z, exec bstep s l = Some s' -> fb_timer s = NoTimer ->
  fb_timer s' = NoTimer /\ exec_gauge bstep (fb_gauge n resetAfter) s l z = z /\ times (int "failover") (exec_bumps bstep bbumps s l) = 0.
Proof.
  intros ->. induction l as [|e l IH]; intros s s' z E A; cbn [exec exec_gauge exec_bumps] in *; [injection E as <-; auto|].
  destruct (fb_step n good 0 s e) as [s1|] eqn:T; [|discriminate]. rewrite times_app.
  assert (H : fb_timer s1 = NoTimer /\ fb_gauge n 0 s s1 e z = z /\ times (int "failover") (fb_bumps name good 0 s e) = 0).
  { destruct e; cbn [fb_step fb_gauge fb_bumps] in *; try discriminate; try (rewrite A in T; cbn in T; try discriminate); try (inv T; auto; fail).
    destruct (fb_pc s t); try discriminate. injection T as <-. destruct (good r); auto. }
  destruct H as (H & -> & ->). apply IH; assumption.
Qed.
End Fail.

Lemma filter_le {A} (f : A -> bool) l : length (filter f l) <= length l.
Proof. induction l as [|x l IH]; [apply le_n|]. cbn. destruct (f x); cbn; lia. Qed.

(** ** Random *)
Section Random.
Variable good : result -> bool.
Notation rstep := (rnd_step good).
Notation rbumps := (rnd_bumps name good).
Lemma rnd_knows past s e s' : knows r_pc past s -> rstep s e = Some s' -> knows r_pc (past ++ [e])%list s'.
Proof.
  intros K E. destruct e; cbn [rnd_step] in E; try discriminate; inv E;
    (first [eapply knows_set; [exact K|intros u; reflexivity|]; cbn; auto; fail | eapply knows_set; [exact K|intros u; reflexivity|]; destruct (good r); exact I
           | eapply knows_same; [exact K|intros u; reflexivity|exact I]]).
Qed.
Lemma rnd_count resolvers l s : exec rstep (rnd_init resolvers) l = Some s -> forall k,
  times ("route", k) (exec_bumps rstep rbumps (rnd_init resolvers) l) = number (is k) (sents l) /\
  times ("failure", k) (exec_bumps rstep rbumps (rnd_init resolvers) l) = number (is k) (blamed (badr good) [] l).
Proof.
  apply (machine_count name rstep rbumps r_pc (badr good)).
  - intros past s0 e s'. apply rnd_knows.
  - intros s0 e s' k E. destruct e; cbn [rnd_bumps sents] in *; rewrite ?number_one; try reflexivity.
    + rewrite times_cons. apply named_times_route.
    + destruct (r_pc s0 t); try reflexivity. destruct (good r); reflexivity.
  - intros past s0 e s' k K E. destruct e; cbn [rnd_bumps] in *; try reflexivity.
    cbn [rnd_step] in E. destruct (r_pc s0 t) eqn:P; try discriminate. rewrite (blamed_reply _ _ _ _ _ (K _ _ _ P)). unfold badr. destruct (good r); cbn [negb]; [reflexivity|]. rewrite number_one. apply named_times_failure.
  - intros t i idx W. discriminate.
Qed.
Lemma rnd_picks l : forall s s', exec rstep s l = Some s' -> times (int "failover") (exec_bumps rstep rbumps s l) = length (sents l) + dead_ends l.
Proof.
  induction l as [|e l IH]; intros s s' E; [reflexivity|]. cbn [exec exec_bumps] in *. destruct (rstep s e) as [s1|] eqn:T; [|discriminate].
  rewrite times_app, (IH _ _ E). destruct e; cbn [rnd_bumps sents dead_ends length]; try reflexivity.
  - destruct (r_pc s t); try reflexivity. destruct (good r); reflexivity.
  - replace (times _ _) with 1 by reflexivity. lia.
Qed.
Lemma rnd_gauge_gen l : forall s s' z, (Z.of_nat (length (r_active s)) <= z)%Z -> exec rstep s l = Some s' ->
  (Z.of_nat (length (r_active s')) <= exec_gauge rstep rnd_gauge s l z)%Z.
Proof.
  induction l as [|e l IH]; intros s s' z H E; cbn [exec exec_gauge] in *; [injection E as <-; exact H|].
  destruct (rstep s e) as [s1|] eqn:T; [|discriminate]. apply (IH s1 s' _); [|exact E]. destruct e; cbn [rnd_step rnd_gauge] in *; try discriminate; try (inv T; cbn in *; lia).
  destruct (r_pc s t); try discriminate. injection T as <-. cbn [r_active]. pose proof (filter_le (fun y => negb (Nat.eqb y idx)) (r_active s)). lia.
Qed.
(** After a pick or a return the gauge is exact. *)
Lemma rnd_exact l e s s' resolvers z : exec rstep (rnd_init resolvers) l = Some s -> rstep s e = Some s' ->
  (match e with Sent _ _ | NoneLeft _ | Reactivate _ => True | _ => False end) ->
  rnd_gauge s s' e z = Z.of_nat (length (r_active s')).
Proof. intros _ T M. destruct e; try contradiction; cbn [rnd_step rnd_gauge] in *; try reflexivity; inv T; reflexivity. Qed.
End Random.

(** ** Load-balance *)
Section LB.
Variable good : result -> bool.
Variable picks : nat -> list nat -> nat.
Variable up : nat -> nat -> result.
Lemma lb_gen fuel : forall j remaining last l r, lb_loop good picks up fuel j remaining last = Some (l, r) -> forall k,
  let b := lb_from name good picks up fuel j remaining in let f := lb_bad good up j l in
  times ("route", k) b = number (is k) l /\ times ("failure", k) b = number (is k) f /\ times (int "failover") b = length f.
Proof.
  induction fuel as [|fuel IH]; intros j remaining last l r E k; cbn [lb_loop lb_from] in *.
  - destruct remaining; [|discriminate]. injection E as <- <-. repeat split; reflexivity.
  - destruct remaining as [|x rem]; [injection E as <- <-; repeat split; reflexivity|]. destruct (nth_error (x :: rem) (picks j (x :: rem))) as [idx|]; [|discriminate].
    assert (R : forall k b, times ("route", k) (route name idx :: b) = one (String.eqb k (name idx)) + times ("route", k) b /\ times ("failure", k) (route name idx :: b) = times ("failure", k) b /\ times (int "failover") (route name idx :: b) = times (int "failover") b).
    { intros k0 b. repeat split; try reflexivity. change (route name idx :: b) with ([route name idx] ++ b)%list. rewrite times_app, named_times_route. reflexivity. }
    assert (F : forall k b, times ("route", k) (failure name idx :: int "failover" :: b) = times ("route", k) b /\ times ("failure", k) (failure name idx :: int "failover" :: b) = one (String.eqb k (name idx)) + times ("failure", k) b /\ times (int "failover") (failure name idx :: int "failover" :: b) = S (times (int "failover") b)).
    { intros k0 b. repeat split; try reflexivity. change (failure name idx :: int "failover" :: b) with ([failure name idx] ++ int "failover" :: b)%list. rewrite times_app, named_times_failure. reflexivity. }
    destruct (good (up j idx)) eqn:G.
    + injection E as <- <-. cbn [lb_bad]. rewrite G. destruct (R k []) as (-> & -> & ->). rewrite number_one. repeat split; cbn; lia.
    + destruct (lb_loop good picks up fuel (S j) _ _) as [[l' r']|] eqn:L; [|discriminate]. injection E as <- <-. destruct (IH _ _ _ _ _ L k) as (H1 & H2 & H3).
      cbn [lb_bad]. rewrite G. cbn zeta. destruct (R k (failure name idx :: int "failover" :: lb_from name good picks up fuel (S j) (swap_remove (picks j (x :: rem)) (x :: rem)))) as (-> & -> & ->).
      destruct (F k (lb_from name good picks up fuel (S j) (swap_remove (picks j (x :: rem)) (x :: rem)))) as (-> & -> & ->).
      rewrite H1, H2, H3. change (idx :: l') with ([idx] ++ l')%list. rewrite !number_app, !number_one. repeat split; reflexivity.
Qed.
Lemma lb_count n l r : lb_resolve good picks up n = Some (l, r) -> forall k,
  times ("route", k) (lb_bumps name good picks up n) = number (is k) l /\
  times ("failure", k) (lb_bumps name good picks up n) = number (is k) (lb_bad good up 0 l) /\
  times (int "failover") (lb_bumps name good picks up n) = length (lb_bad good up 0 l).
Proof. intros E k. exact (lb_gen _ _ _ _ _ _ E k). Qed.
End LB.
End Groups.
