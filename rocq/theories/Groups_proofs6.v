From Verif Require Import Base Bytes Dns Groups_model Groups_spec Groups_proofs Groups_proofs2 Groups_proofs3 Groups_proofs5.
From Coq Require Import Lia Permutation Arith QArith Qround Lqa.
Open Scope nat_scope.

(** ** Fastest *)
Lemma fastest_ok_spec r : fastest_ok r = true <-> fast_usable r.
Proof.
  destruct r as [a| |e]; cbn; [|tauto|split; [discriminate|tauto]].
  destruct (N.eqb_spec (m_rcode a) RcodeServerFailure); cbn; split; congruence.
Qed.
Lemma fastest_ok_false r : fastest_ok r = false <-> ~ fast_usable r.
Proof. rewrite <- fastest_ok_spec. destruct (fastest_ok r); split; congruence. Qed.

Lemma fexec_app n l1 : forall s l2,
  fastest_exec n s (l1 ++ l2) = match fastest_exec n s l1 with None => None | Some s' => fastest_exec n s' l2 end.
Proof.
  induction l1 as [|e l1 IH]; intros s l2; [reflexivity|].
  cbn [app fastest_exec]. destruct (fastest_step n s e); [apply IH|reflexivity].
Qed.
Lemma arrivals_app l1 l2 : arrivals (l1 ++ l2) = arrivals l1 ++ arrivals l2.
Proof. induction l1 as [|e l1 IH]; [reflexivity|]. destruct e; cbn [app arrivals]; rewrite IH; reflexivity. Qed.
Lemma asks_app l1 l2 : asks (l1 ++ l2) = asks l1 ++ asks l2.
Proof. induction l1 as [|e l1 IH]; [reflexivity|]. destruct e; cbn [app asks]; rewrite IH; reflexivity. Qed.

Lemma remove_one_length x l : In x l -> length (remove_one x l) + 1 = length l.
Proof. intros H. rewrite <- (Permutation_length (remove_one_perm x l H)). cbn. lia. Qed.

Definition fast_inv (n : nat) (l : list fevent) (s : fastest) : Prop :=
  Permutation (asks l ++ f_todo s) (seq 0 n) /\
  length (f_todo s) + length (f_wait s) + length (arrivals l) = n /\
  match f_ret s with
  | None => exists taken, arrivals l = taken ++ f_chan s /\ length taken = f_i s /\ Forall (fun x => ~ fast_usable x) taken /\
                          (f_i s < n \/ (n = 0 /\ f_i s = 0))
  | Some r => fastest_of n (arrivals l) r
  end.

Lemma fastest_inv n l : forall s, fastest_exec n (fastest_init n) l = Some s -> fast_inv n l s.
Proof.
  induction l as [|e l IH] using rev_ind; intros s H.
  - injection H as <-. split; [reflexivity|]. split; [cbn; rewrite seq_length; lia|].
    exists []. cbn. split; [reflexivity|]. split; [reflexivity|]. split; [constructor|]. lia.
  - rewrite fexec_app in H. destruct (fastest_exec n (fastest_init n) l) as [s1|]; [|discriminate].
    specialize (IH s1 eq_refl). destruct IH as (H1 & H2 & H3). cbn [fastest_exec] in H.
    destruct (fastest_step n s1 e) as [s2|] eqn:E; [|discriminate]. injection H as <-.
    unfold fast_inv. rewrite asks_app, arrivals_app. destruct e as [i|i r|]; cbn [fastest_step] in E.
    + destruct (existsb _ _) eqn:Ex; [|discriminate]. apply existsb_eqb in Ex. injection E as <-.
      cbn [f_todo f_wait f_ret f_chan f_i asks arrivals]. rewrite app_nil_r. split; [|split; [|exact H3]].
      * etransitivity; [|exact H1]. rewrite <- app_assoc. apply Permutation_app_head. cbn.
        apply remove_one_perm. exact Ex.
      * pose proof (remove_one_length i _ Ex). cbn [length]. lia.
    + destruct (existsb _ _) eqn:Ex; [|discriminate]. apply existsb_eqb in Ex. injection E as <-.
      cbn [f_todo f_wait f_ret f_chan f_i asks arrivals]. rewrite app_nil_r. split; [exact H1|]. split.
      * pose proof (remove_one_length i _ Ex). rewrite app_length. cbn [length]. lia.
      * pose proof (remove_one_length i _ Ex) as Hlen. destruct (f_ret s1) as [r0|].
        -- destruct H3 as [(b & a & Ea & Hb & Hu)|(b & Ea & Hlen' & Hb)].
           ++ left. exists b, (a ++ [r]). rewrite Ea, <- app_assoc. split; [reflexivity|]. split; assumption.
           ++ exfalso. lia.
        -- destruct H3 as (tk & Ea & Hl & Hb & Hi). exists tk. rewrite Ea, <- app_assoc. split; [reflexivity|]. split; [exact Hl|]. split; [exact Hb|exact Hi].
    + destruct (f_ret s1) as [r0|]; [discriminate|]. destruct (f_chan s1) as [|r rest]; [discriminate|].
      rewrite !app_nil_r. destruct H3 as (tk & Ea & Hl & Hb & Hi).
      destruct (fastest_ok r) eqn:Eo; injection E as <-; cbn [f_todo f_wait f_ret f_chan f_i].
      * split; [exact H1|]. split; [exact H2|]. left. exists tk, rest. split; [exact Ea|]. split; [exact Hb|].
        apply fastest_ok_spec. exact Eo.
      * apply fastest_ok_false in Eo. split; [exact H1|]. split; [exact H2|].
        assert (Hb' : Forall (fun x => ~ fast_usable x) (tk ++ [r])).
        { apply Forall_app. split; [exact Hb|]. constructor; [exact Eo|constructor]. }
        assert (Hle : length (arrivals l) <= n) by lia. rewrite Ea, app_length in Hle. cbn [length] in Hle.
        destruct (Nat.leb_spec n (f_i s1 + 1)).
        -- right. destruct rest; [|cbn [length] in Hle; lia]. exists tk. split; [exact Ea|].
           split; [rewrite Ea, app_length; cbn [length]; lia|]. rewrite Ea. exact Hb'.
        -- exists (tk ++ [r]). split; [rewrite Ea, <- app_assoc; reflexivity|].
           split; [rewrite app_length; cbn [length]; lia|]. split; [exact Hb'|]. left. exact H.
Qed.

(** nothing blocks for ever: unless something was returned or no resolver is configured, some
    goroutine can go on, given that resolvers answer *)
Lemma fastest_progress n l s : 0 < n -> fastest_exec n (fastest_init n) l = Some s -> f_ret s = None ->
  (exists i, fastest_step n s (Ask i) <> None) \/ (exists i, forall r, fastest_step n s (Arrive i r) <> None) \/
  fastest_step n s Take <> None.
Proof.
  intros Hn H Hr. destruct (fastest_inv n l s H) as (_ & H2 & H3). rewrite Hr in H3.
  destruct H3 as (tk & Ea & Hl & _ & Hi).
  destruct (f_todo s) as [|i td] eqn:Et.
  2: { left. exists i. cbn [fastest_step]. rewrite Et. cbn [existsb]. rewrite Nat.eqb_refl. discriminate. }
  right. destruct (f_wait s) as [|i w] eqn:Ew.
  2: { left. exists i. intros r. cbn [fastest_step]. rewrite Ew. cbn [existsb]. rewrite Nat.eqb_refl. discriminate. }
  right. cbn [fastest_step]. rewrite Hr. cbn [length] in H2.
  destruct (f_chan s) as [|r rest] eqn:Ec.
  - exfalso. rewrite Ea, app_nil_r in H2. cbn in H2. lia.
  - destruct (fastest_ok r); discriminate.
Qed.

(** ** Load balance *)
Lemma swap_remove_perm pos (l : list nat) x : nth_error l pos = Some x -> Permutation (x :: swap_remove pos l) l.
Proof.
  intros H. apply nth_error_split in H. destruct H as (l1 & l2 & -> & <-). unfold swap_remove.
  rewrite firstn_app, firstn_all, Nat.sub_diag. cbn [firstn]. rewrite app_nil_r.
  replace (skipn (S (length l1)) (l1 ++ x :: l2)) with l2.
  2: { rewrite skipn_app. rewrite skipn_all2 by lia. replace (S (length l1) - length l1) with 1 by lia. reflexivity. }
  destruct l2 as [|y l2] using rev_ind.
  - rewrite last_last. rewrite removelast_last. cbn. rewrite <- Permutation_middle, app_nil_r. reflexivity.
  - clear IHl2. replace (last (l1 ++ x :: l2 ++ [y]) 0) with y.
    2: { change (l1 ++ x :: l2 ++ [y]) with (l1 ++ (x :: l2) ++ [y]). rewrite app_assoc, last_last. reflexivity. }
    change (l1 ++ y :: l2 ++ [y]) with (l1 ++ (y :: l2) ++ [y]). rewrite app_assoc, removelast_last.
    etransitivity; [apply Permutation_middle|]. apply Permutation_app_head. constructor.
    apply Permutation_cons_append.
Qed.

Section LB.
Variable good : result -> bool.
Hypothesis drop_good : good Drop = true.
Variable picks : nat -> list nat -> nat.
Variable up : nat -> nat -> result.
Hypothesis picks_ok : forall k rem, rem <> [] -> picks k rem < length rem.

Lemma lb_loop_spec fuel : forall k rem last,
  length rem <= fuel -> NoDup rem -> (rem = [] -> good last = false \/ k = 0 /\ last = Drop) ->
  exists asked r, lb_loop good picks up fuel k rem last = Some (asked, r) /\
    NoDup asked /\ incl asked rem /\
    (forall j i, j + 1 < length asked -> nth_error asked j = Some i -> good (up (k + j) i) = false) /\
    ((exists j i, j + 1 = length asked /\ nth_error asked j = Some i /\ r = up (k + j) i /\ good r = true) \/
     (length asked = length rem /\
      ((rem = [] /\ r = match last with Drop => no_active | x => x end) \/
       (exists j i, j + 1 = length asked /\ nth_error asked j = Some i /\ r = up (k + j) i /\ good r = false)))).
Proof.
  induction fuel as [|fuel IH]; intros k rem last Hf Hn Hl.
  - destruct rem; [|cbn in Hf; lia]. cbn [lb_loop]. exists [], (match last with Drop => no_active | x => x end).
    split; [reflexivity|]. split; [constructor|]. split; [intros x []|]. split; [intros j i Hj; cbn in Hj; lia|].
    right. split; [reflexivity|]. left. split; reflexivity.
  - destruct rem as [|x0 rem0] eqn:Er.
    { cbn [lb_loop]. exists [], (match last with Drop => no_active | x => x end).
      split; [reflexivity|]. split; [constructor|]. split; [intros x []|]. split; [intros j i Hj; cbn in Hj; lia|].
      right. split; [reflexivity|]. left. split; reflexivity. }
    rewrite <- Er in *. assert (Hne : rem <> []) by (rewrite Er; discriminate).
    assert (Hstep : lb_loop good picks up (S fuel) k rem last =
      match nth_error rem (picks k rem) with
      | None => None
      | Some idx => if good (up k idx) then Some ([idx], up k idx)
                    else match lb_loop good picks up fuel (S k) (swap_remove (picks k rem) rem) (up k idx) with
                         | None => None | Some (l, res) => Some (idx :: l, res) end
      end) by (rewrite Er; reflexivity).
    rewrite Hstep. clear Hstep Er.
    pose proof (picks_ok k rem Hne) as Hp. apply nth_error_Some in Hp.
    destruct (nth_error rem (picks k rem)) as [idx|] eqn:En; [|contradiction].
    pose proof (swap_remove_perm _ _ _ En) as Hperm.
    destruct (good (up k idx)) eqn:Eg.
    { exists [idx], (up k idx). split; [reflexivity|]. split; [constructor; [intros []|constructor]|].
      split. { intros x [<-|[]]. eapply nth_error_In. exact En. }
      split; [intros j i Hj; cbn in Hj; lia|]. left. exists 0, idx. rewrite Nat.add_0_r. auto. }
    assert (Hn' : NoDup (idx :: swap_remove (picks k rem) rem)).
    { eapply Permutation_NoDup; [symmetry; exact Hperm|exact Hn]. }
    inversion Hn' as [|? ? Hnotin Hn2]; subst.
    pose proof (Permutation_length Hperm) as Hlen. cbn [length] in Hlen.
    destruct (IH (S k) (swap_remove (picks k rem) rem) (up k idx)) as (asked & r & Hrun & Hnd & Hinc & Hbad & Hres);
      [lia|exact Hn2|intros _; left; exact Eg|].
    rewrite Hrun. exists (idx :: asked), r. split; [reflexivity|].
    split. { constructor; [|exact Hnd]. intros Hi. apply Hnotin, Hinc, Hi. }
    split. { intros x [<-|Hx]; [eapply nth_error_In; exact En|]. eapply Permutation_in; [exact Hperm|]. right. apply Hinc, Hx. }
    split.
    { intros [|j] i Hj Hi; cbn in Hi.
      - inversion Hi; subst. rewrite Nat.add_0_r. exact Eg.
      - replace (k + S j) with (S k + j) by lia. apply Hbad; [cbn in Hj; lia|exact Hi]. }
    destruct Hres as [(j & i & Hj & Hi & Hr & Hg)|(Hlen2 & Hres)].
    { left. exists (S j), i. cbn. split; [lia|]. split; [exact Hi|]. replace (k + S j) with (S k + j) by lia. auto. }
    right. cbn [length]. split; [lia|]. right. destruct Hres as [(He & Hr)|(j & i & Hj & Hi & Hr & Hg)].
    + rewrite He in Hlen2. destruct asked; [|cbn in Hlen2; lia]. exists 0, idx. split; [reflexivity|]. split; [reflexivity|].
      rewrite Nat.add_0_r. assert (up k idx <> Drop) by congruence. destruct (up k idx); try contradiction; subst r; auto.
    + exists (S j), i. split; [lia|]. split; [exact Hi|]. replace (k + S j) with (S k + j) by lia. auto.
Qed.

Lemma lb_spec n : good no_active = false ->
  exists asked r, lb_resolve good picks up n = Some (asked, r) /\ lb_finished n good up asked r.
Proof.
  intros Hna. unfold lb_resolve. destruct (lb_loop_spec n 0 (seq 0 n) Drop) as (asked & r & Hrun & Hnd & Hinc & Hbad & Hres).
  - rewrite seq_length. lia.
  - apply seq_NoDup.
  - intros _. right. split; reflexivity.
  - exists asked, r. split; [exact Hrun|]. split; [exact Hnd|].
    split. { intros i Hi. apply Hinc in Hi. apply in_seq in Hi. lia. }
    split; [exact Hbad|]. rewrite seq_length in Hres.
    destruct Hres as [Hres|(Hlen & [(He & Hr)|(j & i & Hj & Hi & Hr & Hg)])]; [left; exact Hres| |].
    + right. subst r. split; [exact Hna|]. split; [exact Hlen|]. left.
      split; [destruct n; [reflexivity|discriminate]|eexists; reflexivity].
    + right. split; [exact Hg|]. split; [exact Hlen|]. right. exists j, i. split; [lia|]. auto.
Qed.

Lemma lb_success n g asked r : good no_active = false -> g < n -> (forall k, good (up k g) = true) ->
  lb_resolve good picks up n = Some (asked, r) -> good r = true.
Proof.
  intros Hna Hg Hgood H. destruct (lb_spec n Hna) as (asked' & r' & H' & Hnd & Hin & Hbad & Hres).
  rewrite H in H'. inversion H'; subst asked' r'; clear H'.
  destruct Hres as [(k & i & _ & _ & _ & Hr)|(Hr & Hlen & Hres)]; [exact Hr|]. exfalso.
  assert (Hi : In g asked).
  { assert (Hincl : incl (seq 0 n) asked).
    { apply NoDup_length_incl; [exact Hnd|rewrite seq_length; lia|]. intros x Hx. apply in_seq. specialize (Hin x Hx). lia. }
    apply Hincl, in_seq. lia. }
  apply In_nth_error in Hi. destruct Hi as [k Hk].
  assert (Hkl : k < length asked) by (apply nth_error_Some; congruence).
  destruct (Nat.eq_dec (k + 1) (length asked)) as [E|E].
  - destruct Hres as [[-> _]|(j & i & Hj & Hi & ->)]; [lia|]. assert (j = k) by lia. subst j.
    rewrite Hk in Hi. inversion Hi; subst. rewrite Hgood in Hr. discriminate.
  - specialize (Hbad k g ltac:(lia) Hk). rewrite Hgood in Hbad. discriminate.
Qed.
End LB.

(** *** pick *)
Lemma pick_loop_range ws : forall i sel dflt, i <= dflt -> i + length ws <= S dflt ->
  i <= pick_loop i sel ws dflt <= dflt.
Proof.
  induction ws as [|w ws IH]; intros i sel dflt H1 H2; cbn [pick_loop]; [lia|].
  destruct (Qle_bool (sel - w) 0); [lia|]. cbn [length] in H2. destruct ws as [|w' ws'].
  - cbn [pick_loop]. lia.
  - cbn [length] in *. specialize (IH (S i) (sel - w)%Q dflt). lia.
Qed.

Lemma lb_pick_range stats r1 r2 rem : (0 <= r2 < 1)%Q -> rem <> [] -> lb_pick stats r1 r2 rem < length rem.
Proof.
  intros [H0 H1] Hne. unfold lb_pick. assert (Hl : 0 < length rem) by (destruct rem; [contradiction|cbn; lia]).
  destruct (Qltb r1 exploration).
  - assert (Hq : (r2 * inject_Z (Z.of_nat (length rem)) < inject_Z (Z.of_nat (length rem)))%Q).
    { rewrite <- (Qmult_1_l (inject_Z (Z.of_nat (length rem)))) at 2. apply Qmult_lt_compat_r; [|exact H1].
      change 0%Q with (inject_Z 0). rewrite <- Zlt_Qlt. lia. }
    assert (Hf : (inject_Z (Qfloor (r2 * inject_Z (Z.of_nat (length rem)))) < inject_Z (Z.of_nat (length rem)))%Q).
    { eapply Qle_lt_trans; [apply Qfloor_le|exact Hq]. }
    rewrite <- Zlt_Qlt in Hf. lia.
  - pose proof (pick_loop_range (map (fun idx => weight (stats idx)) rem) 0
      (r2 * fold_left Qplus (map (fun idx => weight (stats idx)) rem) 0)%Q (length rem - 1)) as H.
    rewrite map_length in H. lia.
Qed.

Lemma lb_pick_explores stats rem pos : pos < length rem ->
  exists r1 r2, (0 <= r1 < 1)%Q /\ (0 <= r2 < 1)%Q /\ lb_pick stats r1 r2 rem = pos.
Proof.
  intros H. exists 0%Q, (Z.of_nat pos # Pos.of_nat (length rem)). split; [split; [apply Qle_refl|reflexivity]|].
  assert (Hp : Z.pos (Pos.of_nat (length rem)) = Z.of_nat (length rem)) by lia.
  split.
  - unfold Qle, Qlt. cbn [Qnum Qden]. rewrite Hp. lia.
  - unfold lb_pick. change (Qltb 0 exploration) with true. cbv iota.
    assert (E : ((Z.of_nat pos # Pos.of_nat (length rem)) * inject_Z (Z.of_nat (length rem)) == inject_Z (Z.of_nat pos))%Q).
    { unfold Qeq, Qmult, inject_Z. cbn [Qnum Qden]. rewrite Pos.mul_1_r, Hp. ring. }
    rewrite (Qfloor_comp _ _ E), Qfloor_Z, Nat2Z.id. reflexivity.
Qed.

(** *** the statistics *)
Inductive update := USuccess (us : Q) | UFailure (us : Q).
Definition apply_update (penalty : Q) (s : lbstats) (u : update) : lbstats :=
  match u with USuccess us => updateOnSuccess us s | UFailure us => updateOnFailure penalty us s end.

Lemma Qltb_spec a b : Qltb a b = true <-> (a < b)%Q.
Proof.
  unfold Qltb. rewrite negb_true_iff. split.
  - intros H. apply Qnot_le_lt. intros Hc. apply Qle_bool_iff in Hc. congruence.
  - intros H. destruct (Qle_bool b a) eqn:E; [|reflexivity]. apply Qle_bool_iff in E. lra.
Qed.
Lemma Qltb_false a b : Qltb a b = false <-> (b <= a)%Q.
Proof. unfold Qltb. rewrite negb_false_iff. apply Qle_bool_iff. Qed.
Lemma Qmax_l a b : (a <= Qmax' a b)%Q.
Proof. unfold Qmax'. destruct (Qltb a b) eqn:E; [apply Qltb_spec in E; lra|apply Qle_refl]. Qed.
Lemma Qmax_r a b : (b <= Qmax' a b)%Q.
Proof. unfold Qmax'. destruct (Qltb a b) eqn:E; [apply Qle_refl|apply Qltb_false in E; exact E]. Qed.

Definition sane (s : lbstats) : Prop := cnt s = 0 \/ (1 <= ema s)%Q.

Lemma mix_ge us e : (1 <= us)%Q -> (1 <= e)%Q -> (1 <= alpha * us + (1 - alpha) * e)%Q.
Proof. unfold alpha. intros. lra. Qed.

Lemma sane_update p s u : sane s -> sane (apply_update p s u).
Proof.
  intros H. right. destruct u as [us|us]; cbn [apply_update].
  - unfold updateOnSuccess. cbn [ema]. pose proof (Qmax_r us minSample) as Hm. unfold minSample in Hm.
    destruct (Nat.eqb_spec (cnt s) 0) as [E|E]; [exact Hm|]. cbn [orb]. destruct (inflated s); [exact Hm|].
    destruct H as [H|H]; [contradiction|]. apply mix_ge; assumption.
  - unfold updateOnFailure. set (pen := Qltb 0 p && Nat.leb 2 (S (fails s))). cbn zeta.
    set (d := if pen then p else us). pose proof (Qmax_r d minSample) as Hm.
    destruct (Nat.eqb_spec (cnt s) 0) as [E|E]; cbn [ema].
    + eapply Qle_trans; [exact Hm|]. apply Qmax_l.
    + destruct H as [H|H]; [contradiction|].
      destruct (pen || Qltb (ema s) (alpha * Qmax' d minSample + (1 - alpha) * ema s)%Q); cbn [ema]; [|exact H].
      apply mix_ge; assumption.
Qed.

Lemma sane_weight s : sane s -> (0 < weight s <= 100)%Q.
Proof.
  intros H. unfold weight. destruct (Nat.ltb_spec 0 (cnt s)) as [Hc|Hc]; cbn [andb]; [|split; [reflexivity|discriminate]].
  destruct H as [H|H]; [lia|]. destruct (Qltb 0 (ema s)); [|split; [reflexivity|discriminate]].
  pose proof (Qmax_r (ema s) minWeightRTT) as Hm. unfold minWeightRTT, initialRTT in *.
  assert (Hpos : (0 < Qmax' (ema s) (inject_Z 1000))%Q).
  { eapply Qlt_le_trans; [|exact Hm]. reflexivity. }
  split.
  - apply Qlt_shift_div_l; [exact Hpos|]. rewrite Qmult_0_l. reflexivity.
  - apply Qle_shift_div_r; [exact Hpos|]. change (inject_Z 100000) with (100 * inject_Z 1000)%Q.
    apply Qmult_le_compat_nonneg; [split; [discriminate|apply Qle_refl]|]. split; [discriminate|exact Hm].
Qed.

Lemma lb_weights p us : (0 < weight (fold_left (apply_update p) us lbs0) <= 100)%Q.
Proof.
  apply sane_weight. assert (H : sane lbs0) by (left; reflexivity). revert H. generalize lbs0.
  induction us as [|u us IH]; intros s H; [exact H|]. cbn [fold_left]. apply IH. apply sane_update. exact H.
Qed.
