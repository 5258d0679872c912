From Verif Require Import Base Bytes Netns_model Netns_spec.
Local Open Scope nat_scope.

Lemma mem_in i l : mem i l = true <-> In i l.
Proof. unfold mem. rewrite existsb_exists. split; [intros (x & I & E); apply Nat.eqb_eq in E; subst; exact I|intros I; exists i; split; [exact I|apply Nat.eqb_refl]]. Qed.
Lemma in_drop i j l : In j (drop i l) <-> In j l /\ j <> i.
Proof. unfold drop. rewrite filter_In, negb_true_iff, Nat.eqb_neq. intuition. Qed.
Lemma drop_nodup i l : NoDup l -> NoDup (drop i l).
Proof. apply NoDup_filter. Qed.
Lemma last_app {A} (l : list A) x d : List.last (l ++ [x]) d = x.
Proof. induction l as [|a l IH]; [reflexivity|]. cbn. destruct (l ++ [x]) eqn:E; [destruct l; discriminate E|exact IH]. Qed.

Lemma last_some {A} (l : list A) d : List.last (map Some l) (Some d) = Some (List.last l d).
Proof. induction l as [|a l IH]; [reflexivity|]. cbn [map List.last]. destruct l; [reflexivity|exact IH]. Qed.
Definition newest (s : st) : option bool := List.last (map Some (ch s)) (hd_error (states (log s))).
Record inv (s : st) : Prop := {
  j_fs : List.last (queue s) (fs s) = fs s;
  j_view : lost s = false -> match sub s with NotYet => True | Reading b => List.last (queue s) b = fs s | Listening last => List.last (map Some (queue s)) last = Some (fs s) end;
  j_ch : match sub s with Listening last => last = newest s /\ last <> None | _ => ch s = [] /\ states (log s) = [] end;
  j_alt : alternating (rev (ch s) ++ states (log s));
  j_told : present s = told (log s);
  j_at : match at_ s with
         | Waiting => ln s = None /\ present s = true
         | Stopping k => present s = false /\ retry s = false /\ k <= 30 /\ exists i, ln s = Some i /\ stops i (log s) = S k
         | Idle => (present s = true -> ln s <> None \/ retry s = true) /\ (present s = false -> ln s = None /\ retry s = false) /\ (forall i, ln s = Some i -> stops i (log s) = 0)
         end;
  j_retry : retry s = true -> ln s = None;
  j_new : (forall i, next s <= i -> stops i (log s) = 0 /\ ~ In i (running s) /\ ~ In i (results s)) /\ forall i, ln s = Some i -> i < next s;
  j_run : NoDup (running s) /\ forall i, In i (running s) -> ln s = Some i \/ In (Abandoned i) (log s);
  j_ln : forall i, ln s = Some i -> In i (running s) \/ In i (results s);
  j_launched : forall i, In (Launched i) (log s) -> In i (running s) \/ In (Returned i) (log s);
  j_aband : forall i a b, log s = a ++ Abandoned i :: b -> stops i b = 31;
  j_when : forall i a b, log s = a ++ Launched i :: b -> told b = true;
  j_once : forall i, In i (running s) -> ~ In i (results s) }.

Lemma alt_cons b l : alternating l -> hd_error l <> Some b -> alternating (b :: l).
Proof. destruct l as [|c l]; intros A H; cbn; [exact I|]. split; [cbn in H; congruence|exact A]. Qed.
Lemma alt_tail b l : alternating (b :: l) -> alternating l.
Proof. destruct l; cbn; [auto|]. intros [_ H]. exact H. Qed.
Lemma newest_hd (c l : list bool) : List.last (map Some c) (hd_error l) = hd_error (rev c ++ l).
Proof.
  destruct c as [|x c _] using rev_ind; [reflexivity|]. rewrite map_app, rev_app_distr. cbn [map rev app]. rewrite last_app. reflexivity.
Qed.
Lemma log_cons {e : event} {a b : list event} {x : event} {l : list event} : x :: l = a ++ e :: b -> (a = [] /\ x = e /\ l = b) \/ exists a', a = x :: a' /\ l = a' ++ e :: b.
Proof. destruct a as [|y a]; intros H; injection H as -> ->; [left; auto|right; eauto]. Qed.

Lemma inv_start b : inv (start b).
Proof.
  constructor; cbn; auto; try (intros; discriminate); try (intros i []).
  - split; [tauto|intros i H; discriminate H].
  - split; [constructor|intros i []].
  - intros b' H; discriminate H.
  - intros b' H; discriminate H.
  - intros b' H; discriminate H.
  - intros b' H; discriminate H.
Qed.
Ltac dis := intros; discriminate.
Ltac logs := let E := fresh in let j := fresh in let a := fresh in let b := fresh in
  intros j a b E; repeat (apply log_cons in E; destruct E as [(_ & E & _)|(? & _ & E)]; [discriminate E|]); eauto.
Ltac ins := match goal with H : forall i, In (Launched i) _ -> _ |- _ => let j := fresh in let D := fresh in intros j D; repeat (destruct D as [D|D]; [discriminate D|]); destruct (H j D); auto end.
Ltac runs := match goal with H : NoDup _ /\ _ |- _ => let J := fresh in let j := fresh in split; [exact (proj1 H)|]; intros j J; destruct (proj2 H j J); auto end.
Lemma inv_launch built f q sb c lo p pr re ru rs n lg : pr = true -> inv (St f q sb c lo p None pr re ru rs n lg) -> inv (launch built (St f q sb c lo p None pr re ru rs n lg)).
Proof.
  intros P [I1 I2 I3 I4 I5 I6 I7 I8 I9 I10 I11 I12 I13 I14]. unfold newest in *. cbn [fs queue sub ch lost at_ ln present retry running results next log] in *. subst pr. unfold launch. cbn [fs queue sub ch lost at_ ln present retry running results next log].
  destruct built; constructor; cbn; auto; try dis.
  - split; [left; discriminate|]. split; [dis|]. intros i E. injection E as <-. apply (proj1 I8 n (le_n n)).
  - destruct I8 as [I8 _]. split; [|intros i E; injection E as <-; lia]. intros i J. destruct (I8 i) as (B1 & B2 & B3); [lia|]. split; [exact B1|]. split; [|exact B3]. intros [->|B]; [lia|contradiction].
  - destruct I9 as [I9 I9']. split; [constructor; [exact (proj1 (proj2 (proj1 I8 n (le_n n))))|exact I9]|]. intros i [->|J]; [auto|]. destruct (I9' i J) as [D|D]; [discriminate D|auto].
  - intros i E. injection E as <-. auto.
  - intros i [D|D]; [injection D as ->; auto|]. destruct (I11 i D); auto.
  - logs.
  - intros i a b E. apply log_cons in E. destruct E as [(_ & _ & <-)|(a' & _ & E)]; [congruence|eauto].
  - intros i [->|J]; [apply (proj1 I8 i (le_n i))|auto].
  - split; [auto|]. split; dis.
  - runs.
  - ins.
  - logs.
  - logs.
Qed.
Lemma inv_act a s s' : act a s = Some s' -> inv s -> inv s'.
Proof.
  destruct s as [f q sb c lo p l pr re ru rs n lg]. intros H [I1 I2 I3 I4 I5 I6 I7 I8 I9 I10 I11 I12 I13 I14]. unfold newest in *. cbn [fs queue sub ch lost at_ ln present retry running results next log] in *.
  destruct a as [| | | | | |built| |built| | |i]; cbn [act] in H.
  - injection H as <-. constructor; cbn; auto; [apply last_app|]. intros L. specialize (I2 L). destruct sb; [exact I|apply last_app|]. rewrite map_app. apply last_app.
  - destruct f; [|discriminate H]. injection H as <-. constructor; cbn; auto; [apply last_app|]. intros L. destruct sb; [exact I|apply last_app|]. rewrite map_app. apply last_app.
  - destruct sb; try discriminate H. injection H as <-. constructor; cbn; auto.
  - destruct sb as [|b|]; try discriminate H. destruct I3 as [-> I3]. cbn [notify length Nat.ltb Nat.leb app] in H. injection H as <-. constructor; cbn; auto.
    + rewrite orb_false_r. intros L. rewrite last_some, (I2 L). reflexivity.
    + split; [reflexivity|dis].
    + rewrite I3. exact I.
  - destruct q as [|b q]; [discriminate H|]. assert (Q : List.last q b = f) by (revert I1; clear; revert b; induction q as [|x q IH]; intros b H; [exact H|]; cbn [List.last] in *; destruct q; [exact H|exact (IH b H)]).
    assert (Q1 : List.last q f = f) by (destruct q; [reflexivity|revert Q; clear; intros Q; rewrite <- Q at 2; clear Q; revert b0; induction q as [|y q IH]; intros b0; [reflexivity|cbn [List.last] in *; exact (IH y)]]).
    destruct sb as [|b'|last]; [injection H as <-; constructor; cbn; auto|injection H as <-; constructor; cbn; auto; discriminate|].
    destruct I3 as [I3 I3']. unfold notify in H.
    destruct (match last with Some l => Bool.eqb l b | None => false end) eqn:SM.
    + injection H as <-. destruct last as [lb|]; [|discriminate SM]. apply Bool.eqb_prop in SM. subst lb. constructor; cbn; auto. intros _. rewrite last_some, Q. reflexivity.
    + destruct (length c <? 16); injection H as <-; constructor; cbn; auto; try dis.
      * intros _. rewrite last_some, Q. reflexivity.
      * rewrite map_app. cbn [map]. rewrite last_app. split; [reflexivity|dis].
      * rewrite rev_app_distr. cbn [rev app]. apply alt_cons; [exact I4|]. rewrite <- newest_hd. rewrite <- I3. intros ->. rewrite Bool.eqb_reflx in SM. discriminate SM.
  - destruct p; try discriminate H. destruct c as [|b c]; [discriminate H|]. destruct I6 as (A1 & A2 & A3).
    assert (SB : exists last, sb = Listening last) by (destruct sb; [destruct I3 as [X _]; discriminate X|destruct I3 as [X _]; discriminate X|eauto]). destruct SB as [last ->]. destruct I3 as [I3 I3'].
    assert (N : last = List.last (map Some c) (Some b)).
    { rewrite I3. clear. destruct c as [|x c _] using rev_ind; [reflexivity|]. rewrite app_comm_cons, !map_app. cbn [map]. rewrite !last_app. reflexivity. }
    assert (AL : alternating (rev c ++ b :: states lg)) by (cbn [rev] in I4; rewrite <- app_assoc in I4; exact I4).
    destruct b.
    + injection H as <-. constructor; cbn; auto.
      * destruct l as [i|]; [|auto]. split; [left; discriminate|]. split; [dis|exact A3].
      * runs.
      * ins.
      * logs.
      * logs.
    + destruct l as [i|].
      * injection H as <-. constructor; cbn; auto; try dis.
        -- split; [reflexivity|]. split; [reflexivity|]. split; [lia|]. exists i. split; [reflexivity|]. rewrite Nat.eqb_refl, (A3 i eq_refl). reflexivity.
        -- destruct I8 as [I8 I8']. split; [|exact I8']. intros j J. destruct (I8 j J) as (B1 & B2 & B3). specialize (I8' i eq_refl). destruct (Nat.eqb_spec j i); [lia|]. auto.
        -- runs.
        -- ins.
        -- logs.
        -- logs.
      * injection H as <-. constructor; cbn; auto; try dis.
        -- runs.
        -- ins.
        -- logs.
        -- logs.
  - destruct p; try discriminate H. destruct I6 as [-> ->]. assert (E : launch built (St f q sb c lo Waiting None true re ru rs n lg) = s') by congruence. rewrite <- E. apply inv_launch; [reflexivity|]. constructor; cbn; auto.
  - destruct p; try discriminate H. destruct l as [i|]; [|discriminate H]. destruct (mem i rs) eqn:M; [|discriminate H]. apply mem_in in M. injection H as <-. destruct I6 as (A1 & A2 & A3).
    destruct pr; [|destruct (A2 eq_refl) as [X _]; discriminate X]. constructor; cbn; auto; try dis.
    + split; [auto|]. split; dis.
    + destruct I8 as [I8 I8']. split; [|dis]. intros j J. destruct (I8 j J) as (B1 & B2 & B3). split; [exact B1|]. split; [exact B2|]. rewrite in_drop. tauto.
    + destruct I9 as [I9 I9']. split; [exact I9|]. intros j J. destruct (I9' j J) as [E|E]; [|auto]. injection E as <-. exfalso. exact (I14 i J M).
    + intros j J. rewrite in_drop. intros [X _]. exact (I14 j J X).
  - destruct p; try discriminate H. destruct re; [|discriminate H]. destruct I6 as (A1 & A2 & A3). pose proof (I7 eq_refl) as ->. destruct pr.
    + cbn [andb] in H. assert (E : launch built (St f q sb c lo Idle None true false ru rs n lg) = s') by congruence. rewrite <- E. clear H E s'.
      assert (W : inv (launch built (St f q sb c lo Idle None true true ru rs n lg))) by (apply inv_launch; [reflexivity|]; constructor; cbn; auto). exact W.
    + destruct (A2 eq_refl). discriminate.
  - destruct p as [| |k]; try discriminate H. destruct l as [i|]; [|discriminate H]. destruct (mem i rs) eqn:M; [|discriminate H]. apply mem_in in M. injection H as <-. destruct I6 as (-> & -> & K & _). constructor; cbn; auto; try dis.
    + split; [dis|]. split; [auto|dis].
    + destruct I8 as [I8 I8']. split; [|dis]. intros j J. destruct (I8 j J) as (B1 & B2 & B3). split; [exact B1|]. split; [exact B2|]. rewrite in_drop. tauto.
    + destruct I9 as [I9 I9']. split; [exact I9|]. intros j J. destruct (I9' j J) as [E|E]; [|auto]. injection E as <-. exfalso. exact (I14 i J M).
    + intros j J. rewrite in_drop. intros [X _]. exact (I14 j J X).
  - destruct p as [| |k]; try discriminate H. destruct l as [i|]; [|discriminate H]. destruct I6 as (-> & -> & K & i' & E & S). injection E as <-. destruct (maxAttempts <=? k) eqn:L; injection H as <-; constructor; cbn; auto; try dis.
    + split; [dis|]. split; [auto|dis].
    + destruct I8 as [I8 I8']. split; [exact I8|dis].
    + destruct I9 as [I9 I9']. split; [exact I9|]. intros j J. destruct (I9' j J) as [E|E]; [|auto]. injection E as <-. auto.
    + ins.
    + intros j a b E. apply log_cons in E. destruct E as [(_ & E & <-)|(a' & _ & E)]; [|eauto]. injection E as <-. apply Nat.leb_le in L. unfold maxAttempts in L. lia.
    + logs.
    + apply Nat.leb_gt in L. unfold maxAttempts in L. split; [reflexivity|]. split; [reflexivity|]. split; [lia|]. exists i. split; [reflexivity|]. rewrite Nat.eqb_refl, S. reflexivity.
    + destruct I8 as [I8 I8']. split; [|exact I8']. intros j J. destruct (I8 j J) as (B1 & B2 & B3). specialize (I8' i eq_refl). destruct (Nat.eqb_spec j i); [lia|]. auto.
    + runs.
    + ins.
    + logs.
    + logs.
  - destruct (mem i ru) eqn:M; [|discriminate H]. apply mem_in in M. injection H as <-. constructor; cbn; auto.
    + destruct I8 as [I8 I8']. split; [|exact I8']. intros j J. destruct (I8 j J) as (B1 & B2 & B3). rewrite in_drop. split; [exact B1|]. split; [tauto|]. intros [->|B]; contradiction.
    + destruct I9 as [I9 I9']. split; [apply drop_nodup, I9|]. intros j J. apply in_drop in J. destruct (I9' j (proj1 J)); auto.
    + intros j E. rewrite in_drop. destruct (Nat.eq_dec i j) as [->|D]; [auto|]. destruct (I10 j E); [left; split; congruence|auto].
    + intros j [D|D]; [discriminate D|]. rewrite in_drop. destruct (Nat.eq_dec i j) as [->|D']; [auto|]. destruct (I11 j D); [left; split; congruence|auto].
    + logs.
    + logs.
    + intros j J. rewrite in_drop in J. destruct J as [J D]. intros [->|E]; [congruence|exact (I14 j J E)].
Qed.
Lemma inv_acts l : forall s s', acts l s = Some s' -> inv s -> inv s'.
Proof. induction l as [|a l IH]; intros s s' H I; cbn in H; [injection H as <-; exact I|]. destruct (act a s) as [s1|] eqn:A; [|discriminate H]. exact (IH _ _ H (inv_act _ _ _ A I)). Qed.
Definition reached (b : bool) (l : list action) (s : st) : Prop := acts l (start b) = Some s.
Lemma reached_inv b l s : reached b l s -> inv s.
Proof. intros H. exact (inv_acts _ _ _ H (inv_start b)). Qed.

Section THEOREMS.
Variables (b : bool) (l : list action) (s : st).
Hypothesis R : acts l (start b) = Some s.
Lemma instances : NoDup (running s) /\ forall i, In i (running s) -> ln s = Some i \/ In (Abandoned i) (log s).
Proof. exact (j_run _ (reached_inv _ _ _ R)). Qed.
Lemma one_instance : (forall i, ~ In (Abandoned i) (log s)) -> length (running s) <= 1.
Proof.
  intros N. destruct instances as [D H]. destruct (running s) as [|i [|j r]]; cbn; try lia. exfalso. destruct (H i) as [A|A]; [left; reflexivity| |exact (N i A)]. destruct (H j) as [B|B]; [right; left; reflexivity| |exact (N j B)].
  assert (i = j) by congruence. subst j. inversion D as [|? ? D1 _]; subst. apply D1. left. reflexivity.
Qed.
Lemma launched_when i x y : log s = x ++ Launched i :: y -> told y = true.
Proof. exact (j_when _ (reached_inv _ _ _ R) i x y). Qed.
Lemma all_stopped : at_ s = Idle -> told (log s) = false -> ln s = None /\ retry s = false /\ forall i, In (Launched i) (log s) -> In (Returned i) (log s) \/ In (Abandoned i) (log s).
Proof.
  intros A T. pose proof (reached_inv _ _ _ R) as I. pose proof (j_at _ I) as J. rewrite A in J. destruct J as (_ & J & _). rewrite (j_told _ I), T in J. destruct (J eq_refl) as [J1 J2]. split; [exact J1|]. split; [exact J2|].
  intros i L. destruct (j_launched _ I i L) as [K|K]; [|auto]. destruct (proj2 (j_run _ I) i K) as [E|E]; [congruence|auto].
Qed.
Lemma abandoned_stops i x y : log s = x ++ Abandoned i :: y -> stops i y = 31.
Proof. exact (j_aband _ (reached_inv _ _ _ R) i x y). Qed.
Lemma kept_running : at_ s = Idle -> told (log s) = true -> (exists i, ln s = Some i /\ (In i (running s) \/ In i (results s))) \/ retry s = true.
Proof.
  intros A T. pose proof (reached_inv _ _ _ R) as I. pose proof (j_at _ I) as J. rewrite A in J. destruct J as (J & _ & _). rewrite (j_told _ I) in J. destruct (J T) as [K|K]; [|auto]. left. destruct (ln s) as [i|] eqn:E; [|contradiction]. exists i. split; [reflexivity|exact (j_ln _ I i E)].
Qed.
Lemma alternates : alternating (states (log s)).
Proof. pose proof (j_alt _ (reached_inv _ _ _ R)) as A. revert A. generalize (rev (ch s)) as c. induction c as [|x c IH]; intros A; [exact A|]. apply IH. exact (alt_tail _ _ A). Qed.
Lemma settled_state : settled s -> lost s = false -> (fs s = true -> exists i, ln s = Some i /\ In i (running s)) /\ (fs s = false -> forall i, In i (running s) -> In (Abandoned i) (log s)).
Proof.
  intros (Q & (last & SB) & C & A & RT & RS) L. pose proof (reached_inv _ _ _ R) as I. pose proof (j_view _ I L) as V. rewrite SB, Q in V. cbn in V. subst last. pose proof (j_ch _ I) as K. rewrite SB in K. destruct K as [K _]. unfold newest in K. rewrite C in K. cbn in K.
  assert (T : told (log s) = fs s) by (revert K; clear; induction (log s) as [|[]]; cbn; intros H; auto; try discriminate; congruence).
  split; intros F; rewrite F in T.
  - destruct (kept_running A T) as [(i & E & [H|H])|H]; [eauto|destruct (RS i E H)|congruence].
  - intros i H. destruct (all_stopped A T) as (E & _ & _). destruct (proj2 instances i H) as [X|X]; [congruence|exact X].
Qed.
End THEOREMS.

(** After the last event from outside *)
Definition weight (s : st) : nat :=
  100 * length (queue s) + 50 * length (ch s) + match sub s with NotYet => 52 | Reading _ => 51 | Listening _ => 0 end +
  match at_ s with Idle => 0 | Waiting => 1 | Stopping k => 33 - k end + 3 * length (results s) + (if retry s then 1 else 0).
Lemma drop_length i l : In i l -> length (drop i l) < length l.
Proof.
  induction l as [|j l IH]; intros I; [destruct I|]. unfold drop. cbn [filter]. fold (drop i l). assert (L : length (drop i l) <= length l) by (clear; induction l as [|k l IH]; [reflexivity|]; unfold drop; cbn [filter]; fold (drop i l); destruct (negb (i =? k)); cbn; lia).
  destruct (Nat.eqb_spec i j) as [->|D]; cbn [negb length]; [lia|]. destruct I as [->|I]; [congruence|]. specialize (IH I). lia.
Qed.
Lemma internal_weight a s s' : inv s -> internal a = true -> act a s = Some s' -> weight s' < weight s.
Proof.
  intros V. destruct s as [f q sb c lo p l pr re ru rs n lg]. intros N H. pose proof (j_at _ V) as J. pose proof (j_retry _ V) as RT. cbn [at_ ln present retry log] in J, RT. unfold weight. destruct a as [| | | | | |[|]| |[|]| | |i]; try discriminate N; cbn [act] in H; cbn [queue ch sub at_ results retry].
  - destruct sb; try discriminate H. injection H as <-. cbn [queue ch sub at_ results retry]. lia.
  - destruct sb as [|b|]; try discriminate H. unfold notify in H. destruct (length c <? 16); injection H as <-; cbn [queue ch sub at_ results retry]; rewrite ?app_length; cbn [length]; lia.
  - destruct q as [|b q]; [discriminate H|]. destruct sb as [|b'|last]; [injection H as <-; cbn [queue ch sub at_ results retry length]; lia|injection H as <-; cbn [queue ch sub at_ results retry length]; lia|].
    unfold notify in H. destruct (match last with Some l => Bool.eqb l b | None => false end); [|destruct (length c <? 16)]; injection H as <-; cbn [queue ch sub at_ results retry length]; rewrite ?app_length; cbn [length]; lia.
  - destruct p; try discriminate H. destruct c as [|b c]; [discriminate H|]. destruct b, l; injection H as <-; cbn [queue ch sub at_ results retry length]; try lia; destruct re; lia.
  - destruct p; try discriminate H. unfold launch in H. cbn [fs queue sub ch lost at_ ln present retry running results next log] in H. injection H as <-. cbn [queue ch sub at_ results retry length]. destruct re; lia.
  - destruct p; try discriminate H. destruct l as [i|]; [|discriminate H]. destruct (mem i rs) eqn:M; [|discriminate H]. apply mem_in, drop_length in M. injection H as <-. cbn [queue ch sub at_ results retry length]. destruct pr, re; lia.
  - destruct p; try discriminate H. destruct re; [|discriminate H]. unfold launch in H. cbn [fs queue sub ch lost at_ ln present retry running results next log] in H. destruct (pr && _); injection H as <-; cbn [queue ch sub at_ results retry length]; lia.
  - destruct p as [| |k]; try discriminate H. destruct l as [i|]; [|discriminate H]. destruct (mem i rs) eqn:M; [|discriminate H]. apply mem_in, drop_length in M. injection H as <-. cbn [queue ch sub at_ results retry length]. lia.
  - destruct p as [| |k]; try discriminate H. destruct l as [i|]; [|discriminate H]. destruct J as (_ & _ & K & _). destruct (maxAttempts <=? k) eqn:L; injection H as <-; cbn [queue ch sub at_ results retry length]; lia.
Qed.
Lemma must_settle b l s l' s' : acts l (start b) = Some s -> forallb internal l' = true -> acts l' s = Some s' -> length l' <= weight s.
Proof.
  intros R. apply reached_inv in R. revert s R. induction l' as [|a l' IH]; intros s V F H; [cbn [length]; lia|]. cbn in F, H. apply andb_true_iff in F. destruct F as [F1 F2]. destruct (act a s) as [s1|] eqn:A; [|discriminate H]. pose proof (internal_weight _ _ _ V F1 A). specialize (IH s1 (inv_act _ _ _ A V) F2 H). cbn [length]. lia.
Qed.
Lemma until_settled b l s : acts l (start b) = Some s -> settled s \/ exists a s', internal a = true /\ act a s = Some s'.
Proof.
  intros R. apply reached_inv in R. pose proof (j_at _ R) as J. pose proof (j_retry _ R) as RT. destruct s as [f q sb c lo p l0 pr re ru rs n lg]. cbn [at_ ln present retry log] in J, RT.
  destruct sb as [|x|last]; [right; exists SubRead; eexists; split; reflexivity|right; exists SubAdd; cbn [act]; destruct (notify None c x) as [[? ?] ?]; eexists; split; reflexivity|].
  destruct q as [|x q]; [|right; exists Dispatch; cbn; destruct (notify last c x) as [[? ?] ?]; eexists; split; reflexivity].
  destruct p as [| |k].
  - destruct c as [|x c]; [|right; exists Take; cbn; destruct x, l0; eexists; split; reflexivity].
    destruct re; [right; exists (Tick true); cbn [act]; destruct (pr && _); eexists; split; reflexivity|].
    destruct l0 as [i|].
    + destruct (mem i rs) eqn:M; [right; exists TakeErr; cbn; rewrite M; eexists; split; reflexivity|]. left. repeat split; cbn; eauto. intros j E I. injection E as <-. apply mem_in in I. congruence.
    + left. repeat split; cbn; eauto. discriminate.
  - right. exists (Ready true). eexists. split; reflexivity.
  - destruct J as (_ & _ & _ & i & -> & _). right. exists Patience. cbn [act]. destruct (maxAttempts <=? k); eexists; split; reflexivity.
Qed.
Lemma tick b l s : acts l (start b) = Some s -> at_ s = Idle -> retry s = true -> forall built, exists s', act (Tick built) s = Some s' /\
  (if built then exists i, log s' = Launched i :: log s /\ ln s' = Some i /\ In i (running s') else log s' = BuildFailed :: log s /\ retry s' = true).
Proof.
  intros R. apply reached_inv in R. pose proof (j_at _ R) as J. pose proof (j_retry _ R) as RT. destruct s as [f q sb c lo p l0 pr re ru rs n lg]. cbn [at_ ln present retry log running] in *. intros -> -> built. rewrite (RT eq_refl) in *. destruct J as (_ & J & _). destruct pr; [|destruct (J eq_refl); discriminate].
  cbn [act andb]. eexists. split; [reflexivity|]. destruct built; cbn; eauto.
Qed.

(** Events of the kernel *)
Local Open Scope N_scope.
Lemma get_put32le n : n < 2 ^ 32 -> get32le 0 (put32le n) = n.
Proof.
  intros H. unfold get32le, put32le. cbn [nth Nat.add].
  pose proof (N.div_mod n 256 ltac:(lia)) as E0. pose proof (N.div_mod (n / 256) 256 ltac:(lia)) as E1. pose proof (N.div_mod (n / 65536) 256 ltac:(lia)) as E2.
  replace (n / 65536) with (n / 256 / 256) in * by (rewrite N.div_div by lia; reflexivity). replace (n / 16777216) with (n / 256 / 256 / 256) in * by (rewrite !N.div_div by lia; reflexivity).
  assert (B : n / 256 / 256 / 256 < 256) by (rewrite !N.div_div by lia; apply N.div_lt_upper_bound; [lia|]; change (2 ^ 32) with 4294967296 in H; lia).
  rewrite (N.mod_small (n / 256 / 256 / 256)) by exact B. lia.
Qed.
Lemma get32le_app l1 l2 l3 : length l2 = 4%nat -> get32le (length l1) (l1 ++ l2 ++ l3) = get32le 0 l2.
Proof.
  intros L. unfold get32le. assert (X : forall k, (k < 4)%nat -> nth (length l1 + k) (l1 ++ l2 ++ l3) 0 = nth k l2 0) by (intros k K; rewrite app_nth2_plus; rewrite app_nth1 by lia; reflexivity).
  cbn [Nat.add]. rewrite <- (X 0%nat), <- (X 1%nat), <- (X 2%nat), <- (X 3%nat) by lia. rewrite Nat.add_0_r. reflexivity.
Qed.
Lemma until_nul_pad l k : ~ In 0 l -> until_nul (l ++ repeat 0 k) = l.
Proof. induction l as [|x l IH]; intros N; cbn; [destruct k; reflexivity|]. destruct (N.eqb_spec x 0) as [->|D]; [destruct N; left; reflexivity|]. rewrite IH; [reflexivity|]. intros I. apply N. right. exact I. Qed.
Lemma land_two m i j : (N.land m (N.lor (2 ^ i) (2 ^ j)) =? 0) = negb (N.testbit m i || N.testbit m j).
Proof.
  apply Bool.eq_true_iff_eq. rewrite N.eqb_eq, negb_true_iff, orb_false_iff. split.
  - intros H. assert (X : forall k, N.testbit (N.land m (N.lor (2 ^ i) (2 ^ j))) k = false) by (intros k; rewrite H; apply N.bits_0). split; [specialize (X i)|specialize (X j)]; rewrite N.land_spec, N.lor_spec, N.pow2_bits_true in X; [|rewrite orb_comm in X]; cbn [orb] in X; rewrite ?andb_true_r in X; exact X.
  - intros [A B]. apply N.bits_inj. intros k. rewrite N.bits_0, N.land_spec, N.lor_spec, !N.pow2_bits_eqb. destruct (N.eqb_spec i k) as [<-|]; [rewrite A; reflexivity|]. destruct (N.eqb_spec j k) as [<-|]; [rewrite B; reflexivity|]. apply andb_false_r.
Qed.
Lemma kbytes_length e : kevent_ok e -> length (kbytes e) = (16 + (length (k_name e) + k_pad e))%nat.
Proof. intros (A & B & _). unfold kbytes. rewrite !app_length, repeat_length, A, B. cbn [length put32le]. lia. Qed.
Lemma slice_mid (l1 l2 l3 : list N) : slice (length l1) (length l1 + length l2) (l1 ++ l2 ++ l3) = l2.
Proof. unfold slice. rewrite skipn_app, skipn_all, Nat.sub_diag. cbn [app skipn]. replace (length l1 + length l2 - length l1)%nat with (length l2) by lia. rewrite firstn_app, firstn_all, Nat.sub_diag. cbn. apply app_nil_r. Qed.
Lemma events_spec es : forall fuel pre rest, Forall kevent_ok es -> (length (flat_map kbytes es) < fuel)%nat ->
  events fuel (pre ++ flat_map kbytes es ++ rest) (length (pre ++ flat_map kbytes es)) (length pre) = Some (flat_map meaning es).
Proof.
  induction es as [|e es IH]; intros fuel pre rest F L; (destruct fuel as [|fuel]; [lia|]); cbn [flat_map events].
  - rewrite app_nil_r. destruct (Nat.leb_spec (length pre + 16) (length pre)); [lia|reflexivity].
  - apply Forall_cons_iff in F. destruct F as [K F]. pose proof (kbytes_length e K) as LK. destruct K as (A & B & M & LN & NZ). cbn [flat_map] in L. rewrite app_length in L.
    rewrite !app_length. destruct (Nat.leb_spec (length pre + 16) (length pre + (length (kbytes e) + length (flat_map kbytes es)))) as [_|X]; [|lia].
    set (R := flat_map kbytes es ++ rest). assert (EQ : pre ++ (kbytes e ++ flat_map kbytes es) ++ rest = pre ++ kbytes e ++ R) by (unfold R; rewrite <- app_assoc; reflexivity). rewrite EQ.
    assert (G1 : get32le (length pre + 4) (pre ++ kbytes e ++ R) = k_mask e).
    { unfold kbytes. transitivity (get32le 0 (put32le (k_mask e))); [|exact (get_put32le (k_mask e) M)]. rewrite <- (get32le_app (pre ++ k_wd e) (put32le (k_mask e)) (k_cookie e ++ put32le (N.of_nat (length (k_name e) + k_pad e)) ++ (k_name e ++ repeat 0 (k_pad e)) ++ R) eq_refl). rewrite app_length, A. rewrite <- !app_assoc. reflexivity. }
    assert (G2 : get32le (length pre + 12) (pre ++ kbytes e ++ R) = N.of_nat (length (k_name e) + k_pad e)).
    { unfold kbytes. transitivity (get32le 0 (put32le (N.of_nat (length (k_name e) + k_pad e)))); [|exact (get_put32le _ LN)]. rewrite <- (get32le_app (pre ++ k_wd e ++ put32le (k_mask e) ++ k_cookie e) (put32le (N.of_nat (length (k_name e) + k_pad e))) ((k_name e ++ repeat 0 (k_pad e)) ++ R) eq_refl). rewrite !app_length, A, B. cbn [length put32le]. rewrite <- !app_assoc. reflexivity. }
    rewrite G1, G2, Nat2N.id. rewrite LK. match goal with |- context [(?x <? ?y)%nat] => destruct (Nat.ltb_spec x y) as [X|_]; [lia|] end.
    assert (G3 : slice (length pre + 16) (length pre + 16 + (length (k_name e) + k_pad e)) (pre ++ kbytes e ++ R) = k_name e ++ repeat 0 (k_pad e)).
    { unfold kbytes. set (P := pre ++ k_wd e ++ put32le (k_mask e) ++ k_cookie e ++ put32le (N.of_nat (length (k_name e) + k_pad e))). transitivity (slice (length P) (length P + length (k_name e ++ repeat 0 (k_pad e))) (P ++ (k_name e ++ repeat 0 (k_pad e)) ++ R)); [|apply slice_mid]. unfold P. rewrite !app_length, repeat_length, A, B. cbn [length put32le]. rewrite <- !app_assoc. f_equal; lia. }
    rewrite G3, until_nul_pad by exact NZ.
    specialize (IH fuel (pre ++ kbytes e) rest F). rewrite !app_length, LK in IH. rewrite <- app_assoc in IH. fold R in IH. replace (length pre + 16 + (length (k_name e) + k_pad e))%nat with (length pre + (16 + (length (k_name e) + k_pad e)))%nat by lia. replace (length pre + (16 + (length (k_name e) + k_pad e) + length (flat_map kbytes es)))%nat with (length pre + (16 + (length (k_name e) + k_pad e)) + length (flat_map kbytes es))%nat by lia.
    rewrite IH by lia. change IN_CREATE with (2 ^ 8). change IN_MOVED_TO with (2 ^ 7). change IN_DELETE with (2 ^ 9). change IN_MOVED_FROM with (2 ^ 6). rewrite !land_two, !negb_involutive. unfold meaning.
    destruct (k_name e); [destruct (_ || _); [reflexivity|destruct (_ || _); reflexivity]|]. destruct (_ || _); [reflexivity|]. destruct (_ || _); reflexivity.
Qed.
Lemma read_events es rest : Forall kevent_ok es -> events (S (length (flat_map kbytes es))) (flat_map kbytes es ++ rest) (length (flat_map kbytes es)) 0 = Some (flat_map meaning es).
Proof. intros F. exact (events_spec es (S (length (flat_map kbytes es))) [] rest F (Nat.lt_succ_diag_r _)). Qed.
Local Open Scope nat_scope.
Fixpoint times (n : nat) (l : list action) : list action := match n with O => [] | S k => l ++ times k l end.
Definition race_run : list action := [SubRead; Change; Dispatch; SubAdd; Take].
Definition full_run : list action := [SubRead; SubAdd; Take] ++ times 17 [Change; Dispatch] ++ [Ready true] ++
  flat_map (fun i => [Take; Return i; Stopped; Take; Ready true]) (seq 0 8).
Definition two_run : list action := [SubRead; SubAdd; Take; Ready true; Change; Dispatch; Take] ++ times 31 [Patience] ++ [Change; Dispatch; Take; Ready true].
Lemma race_missed : exists b l s, acts l (start b) = Some s /\ settled s /\ fs s = true /\ running s = [].
Proof. exists false, race_run. eexists. split; [vm_compute; reflexivity|]. split; [|split; reflexivity]. repeat split; cbn; eauto. Qed.
Lemma full_missed : exists b l s, acts l (start b) = Some s /\ settled s /\ fs s = false /\ (forall i, ~ In (Abandoned i) (log s)) /\ exists i, running s = [i].
Proof.
  exists true, full_run. eexists. split; [vm_compute; reflexivity|]. split; [repeat split; cbn; eauto; intros i E I; injection E as <-; destruct I|]. split; [reflexivity|]. split; [|eexists; reflexivity].
  intros i. cbn [log]. cbn [In]. intros H. repeat (destruct H as [H|H]; [discriminate H|]). exact H.
Qed.
Lemma two_running : exists b l s, acts l (start b) = Some s /\ settled s /\ lost s = false /\ running s = [1; 0].
Proof. exists true, two_run. eexists. split; [vm_compute; reflexivity|]. split; [|split; reflexivity]. repeat split; cbn; eauto. Qed.
