From Verif Require Import Base Dns Name_model Cidr_model Keystore_model Anchor_model Anchor_spec.
From Coq Require Import Lia.
Local Open Scope Z_scope.

(** ** The calendar *)
Lemma leap_is y : isLeap y = leap y.
Proof.
  unfold isLeap, leap. destruct (Z.eqb_spec (y mod 400) 0) as [E|E].
  - assert (y mod 4 = 0) by (Z.to_euclidean_division_equations; lia). destruct (Z.eqb_spec (y mod 4) 0); [|contradiction]. rewrite Bool.orb_true_r. reflexivity.
  - rewrite Bool.orb_false_r. destruct (Z.eqb_spec (y mod 100) 0); [apply Bool.andb_false_r|]. apply Bool.andb_true_r.
Qed.
Definition closed_form (y : Z) : Z := 365 * y + (y + 3) / 4 - (y + 99) / 100 + (y + 399) / 400.
Lemma year_step y : 0 <= y -> closed_form (y + 1) = closed_form y + year_days y.
Proof.
  intros P. unfold closed_form, year_days, leap.
  destruct (Z.eqb_spec (y mod 400) 0); [|destruct (Z.eqb_spec (y mod 100) 0); [|destruct (Z.eqb_spec (y mod 4) 0)]]; Z.to_euclidean_division_equations; lia.
Qed.
Lemma total_app a b : total (a ++ b) = total a + total b.
Proof. unfold total. induction a; cbn; [reflexivity|]. rewrite IHa. lia. Qed.
Lemma years n : total (map (fun i => year_days (Z.of_nat i)) (seq 0 n)) = closed_form (Z.of_nat n).
Proof.
  induction n as [|n IH]; [reflexivity|]. rewrite seq_S, map_app, total_app, IH. cbn [map total fold_right plus]. replace (Z.of_nat (S n)) with (Z.of_nat n + 1) by lia. rewrite year_step by lia. lia.
Qed.
Lemma epoch y : 0 <= y -> daysSinceEpoch y = closed_form y + 145731.
Proof. intros P. unfold daysSinceEpoch, closed_form. cbv zeta. Z.to_euclidean_division_equations. lia. Qed.
Lemma months y m : 1 <= m <= 12 -> total (map (fun i => month_days y (Z.of_nat i)) (seq 1 (Z.to_nat (m - 1)))) = daysBefore (m - 1) + (if isLeap y && (3 <=? m) then 1 else 0).
Proof.
  intros B. rewrite leap_is. assert (C : m = 1 \/ m = 2 \/ m = 3 \/ m = 4 \/ m = 5 \/ m = 6 \/ m = 7 \/ m = 8 \/ m = 9 \/ m = 10 \/ m = 11 \/ m = 12) by lia.
  repeat (destruct C as [->|C]); try subst m; unfold month_days; cbn; destruct (leap y); reflexivity.
Qed.
Lemma days_in y m : 1 <= m <= 12 -> daysIn m y = month_days y m.
Proof.
  intros B. unfold daysIn. rewrite leap_is. assert (C : m = 1 \/ m = 2 \/ m = 3 \/ m = 4 \/ m = 5 \/ m = 6 \/ m = 7 \/ m = 8 \/ m = 9 \/ m = 10 \/ m = 11 \/ m = 12) by lia.
  repeat (destruct C as [->|C]); try subst m; unfold month_days; cbn; destruct (leap y); reflexivity.
Qed.
Lemma unix y m d hh mm ss : 0 <= y -> 1 <= m <= 12 -> unixDate y m d hh mm ss = seconds y m d hh mm ss.
Proof.
  intros Y M. unfold unixDate, seconds. cbv zeta. unfold day_number. rewrite !years, months by exact M. rewrite (months 1970 1) by lia. rewrite !Z2Nat.id by lia. rewrite epoch by exact Y.
  change (closed_form 1970) with 719528. change (daysBefore (1 - 1)) with 0. change (isLeap 1970 && (3 <=? 1)) with false. cbv iota. lia.
Qed.

(** ** Digits *)
Lemma bind_iff {A B} (o : option A) (f : A -> option B) y : bindz o f = Some y <-> exists x, o = Some x /\ f x = Some y.
Proof. destruct o as [x|]; cbn; split; [intros H; eauto|intros (x' & [= ->] & H); exact H|discriminate|intros (x' & H & _); discriminate]. Qed.
Lemma digit_iff c n : digitz c = Some n <-> 0 <= n <= 9 /\ c = dchar n.
Proof.
  unfold digitz, digit, dchar. destruct (N.leb_spec 48 (N_of_ascii c)) as [L|L], (N.leb_spec (N_of_ascii c) 57) as [G|G]; cbn [andb option_map]; split; try discriminate.
  1: intros [= <-]; split; [lia|]; rewrite N2Z.id; replace (48 + (N_of_ascii c - 48))%N with (N_of_ascii c) by lia; symmetry; apply ascii_N_embedding.
  all: intros [B ->]; rewrite N_ascii_embedding in * by lia; try lia. f_equal. lia.
Qed.
Lemma digit_char n : 0 <= n <= 9 -> digitz (dchar n) = Some n.
Proof. intros B. apply digit_iff. auto. Qed.
Lemma num2_iff s n t : num2 s = Some (n, t) <-> 0 <= n <= 99 /\ s = (two n ++ t)%string.
Proof.
  unfold num2, two. split.
  - destruct s as [|a [|b u]]; try discriminate. intros H. apply bind_iff in H. destruct H as (x & A & H). apply bind_iff in H. destruct H as (y & B & H). assert (n = 10 * x + y) as -> by congruence. assert (u = t) as -> by congruence.
    apply digit_iff in A. apply digit_iff in B. destruct A as [A ->], B as [B ->]. split; [lia|]. replace ((10 * x + y) / 10) with x by (Z.to_euclidean_division_equations; lia). replace ((10 * x + y) mod 10) with y by (Z.to_euclidean_division_equations; lia). reflexivity.
  - intros [B ->]. cbn [String.append]. rewrite !digit_char by (Z.to_euclidean_division_equations; lia). cbn [bindz]. do 2 f_equal. Z.to_euclidean_division_equations; lia.
Qed.
Lemma num4_iff s n t : num4 s = Some (n, t) <-> 0 <= n <= 9999 /\ s = (four n ++ t)%string.
Proof.
  unfold num4, four. split.
  - intros H. apply bind_iff in H. destruct H as ([x u] & A & H). apply bind_iff in H. destruct H as ([y v] & B & H). assert (n = 100 * x + y) as -> by congruence. assert (v = t) as -> by congruence. apply num2_iff in A. apply num2_iff in B. destruct A as [A ->], B as [B ->].
    split; [lia|]. replace ((100 * x + y) / 100) with x by (Z.to_euclidean_division_equations; lia). replace ((100 * x + y) mod 100) with y by (Z.to_euclidean_division_equations; lia). reflexivity.
  - intros [B ->]. assert (E1 : num2 (two (n / 100) ++ two (n mod 100) ++ t) = Some (n / 100, (two (n mod 100) ++ t)%string)) by (apply num2_iff; split; [Z.to_euclidean_division_equations; lia|reflexivity]).
    change ((two (n / 100) ++ two (n mod 100)) ++ t)%string with (two (n / 100) ++ two (n mod 100) ++ t)%string. rewrite E1. cbn [bindz].
    assert (E2 : num2 (two (n mod 100) ++ t) = Some (n mod 100, t)) by (apply num2_iff; split; [Z.to_euclidean_division_equations; lia|reflexivity]). rewrite E2. cbn [bindz]. do 2 f_equal. Z.to_euclidean_division_equations; lia.
Qed.
Definition starts_digit (s : string) : Prop := match s with String c _ => digitz c <> None | EmptyString => False end.
Lemma num1_iff s n t : num1 s = Some (n, t) <-> (0 <= n <= 99 /\ s = (two n ++ t)%string) \/ (0 <= n <= 9 /\ s = (one n ++ t)%string /\ ~ starts_digit t).
Proof.
  unfold num1. split.
  - destruct s as [|a u]; [discriminate|]. intros H. apply bind_iff in H. destruct H as (x & A & H). destruct u as [|b v].
    + injection H as <- <-. apply digit_iff in A. destruct A as [A ->]. right. split; [exact A|]. split; [reflexivity|]. cbn. tauto.
    + destruct (digitz b) as [y|] eqn:B; injection H as <- <-.
      * left. apply (num2_iff (String a (String b v))). cbn. rewrite A. cbn. rewrite B. reflexivity.
      * apply digit_iff in A. destruct A as [A ->]. right. split; [exact A|]. split; [reflexivity|]. cbn. congruence.
  - intros [H|(B & -> & N)].
    + apply num2_iff in H. destruct s as [|a [|b v]]; try discriminate. cbn in H. destruct (digitz a) as [x|]; [|discriminate]. cbn in H |- *. destruct (digitz b); [|discriminate]. exact H.
    + cbn. rewrite digit_char by exact B. cbn. destruct t as [|c v]; [reflexivity|]. cbn in N. destruct (digitz c); [contradiction N; discriminate|reflexivity].
Qed.
Lemma skip_iff c s t : skipc c s = Some t <-> s = String c t.
Proof. unfold skipc. destruct s as [|a u]; [split; discriminate|]. destruct (Ascii.eqb_spec a c) as [->|N]; split; congruence. Qed.
Lemma within_iff lo hi x u : within lo hi x = Some u <-> lo <= x <= hi.
Proof. unfold within. destruct u, (Z.leb_spec lo x), (Z.leb_spec x hi); cbn; split; try discriminate; try lia; reflexivity. Qed.
Lemma digits_iff s l u : digits s = (l, u) <-> Forall (fun d => 0 <= d <= 9) l /\ s = (dtext l ++ u)%string /\ ~ starts_digit u.
Proof.
  revert l u. induction s as [|a s IH]; intros l u; cbn.
  - split; [intros [= <- <-]; split; [constructor|split; [reflexivity|cbn; tauto]]|]. intros (F & E & _). destruct l; [cbn in E; subst; reflexivity|discriminate].
  - destruct (digitz a) as [x|] eqn:A.
    + destruct (digits s) as [l' u'] eqn:D. pose proof (proj1 (IH l' u') eq_refl) as (F' & E' & N'). apply digit_iff in A. destruct A as [B ->]. split.
      * intros [= <- <-]. split; [constructor; assumption|]. split; [cbn; congruence|exact N'].
      * intros (F & E & N). destruct l as [|d l]; [cbn in E; subst u; contradiction N; cbn; rewrite digit_char by exact B; discriminate|].
        cbn in E. injection E as E1 E2. inversion F; subst. assert (ED : d = x).
        { assert (digitz (dchar x) = digitz (dchar d)) by congruence. rewrite !digit_char in H by assumption. congruence. }
        subst d. assert (EQ : (l', u') = (l, u)) by (apply IH; auto). congruence.
    + split.
      * intros [= <- <-]. split; [constructor|]. split; [reflexivity|]. cbn. congruence.
      * intros (F & E & N). destruct l as [|d l]; [cbn in E; subst; reflexivity|]. exfalso. cbn in E. injection E as -> _. inversion F; subst. rewrite digit_char in A by assumption. discriminate.
Qed.
Lemma decimal_from l : forall n, fold_left (fun n d => 10 * n + d) l n = n * 10 ^ Z.of_nat (length l) + dvalue l.
Proof.
  induction l as [|d l IH]; intros n; cbn [fold_left dvalue length]; [cbn; lia|]. rewrite IH. replace (Z.of_nat (S (length l))) with (Z.of_nat (length l) + 1) by lia. rewrite Z.pow_add_r by lia. ring.
Qed.
Lemma decimal_value l : decimalz l = dvalue l.
Proof. unfold decimalz. rewrite decimal_from. lia. Qed.
Lemma dvalue_app a b : dvalue (a ++ b) = dvalue a * 10 ^ Z.of_nat (length b) + dvalue b.
Proof.
  induction a as [|d a IH]; cbn [dvalue app]; [lia|]. rewrite IH, app_length, Nat2Z.inj_add, Z.pow_add_r by lia. ring.
Qed.
Lemma dvalue_bound l : Forall (fun d => 0 <= d <= 9) l -> 0 <= dvalue l < 10 ^ Z.of_nat (length l).
Proof.
  induction 1 as [|d l B F IH]; cbn [dvalue length]; [cbn; lia|]. replace (Z.of_nat (S (length l))) with (Z.of_nat (length l) + 1) by lia. rewrite Z.pow_add_r by lia.
  pose proof (Z.pow_pos_nonneg 10 (Z.of_nat (length l)) ltac:(lia) ltac:(lia)). nia.
Qed.
Lemma nanos_is l : Forall (fun d => 0 <= d <= 9) l -> nanos l = (dvalue l * 10 ^ 9) / 10 ^ Z.of_nat (length l).
Proof.
  intros F. unfold nanos. cbv zeta. rewrite decimal_value. destruct (Nat.le_gt_cases (length l) 9) as [L|L].
  - rewrite firstn_all2 by exact L. replace (10 ^ 9) with (10 ^ Z.of_nat (9 - length l) * 10 ^ Z.of_nat (length l)) by (rewrite <- Z.pow_add_r by lia; f_equal; lia).
    rewrite Z.mul_assoc, Z.div_mul by (apply Z.pow_nonzero; lia). reflexivity.
  - rewrite firstn_length, Nat.min_l by lia. rewrite Nat.sub_diag. cbn [Z.of_nat]. change (10 ^ 0) with 1. rewrite Z.mul_1_r. rewrite <- (firstn_skipn 9 l) at 2. rewrite dvalue_app.
    assert (FS : Forall (fun d => 0 <= d <= 9) (skipn 9 l)) by (rewrite <- (firstn_skipn 9 l) in F; apply Forall_app in F; apply F).
    pose proof (dvalue_bound _ FS) as B. assert (LL : length l = (9 + length (skipn 9 l))%nat) by (rewrite skipn_length; lia). rewrite LL, Nat2Z.inj_add, Z.pow_add_r by lia. change (Z.of_nat 9) with 9.
    rewrite Z.mul_comm. rewrite Z.mul_comm. rewrite (Z.mul_comm _ (10 ^ 9)). rewrite Z.div_mul_cancel_l by (try apply Z.pow_nonzero; lia).
    rewrite Z.add_comm, Z.div_add by (apply Z.pow_nonzero; lia). rewrite Z.div_small by exact B. reflexivity.
Qed.
Lemma append_nil s : (s ++ "")%string = s. Proof. induction s; cbn; congruence. Qed.
Lemma zone_iff s o : zone s = Some (o, ""%string) <-> zone_is true s o.
Proof.
  split.
  - destruct s as [|c t]; [discriminate|]. unfold zone. destruct (Ascii.eqb_spec c "Z"%char) as [->|NZ]; [intros H; injection H as <- ->; constructor|].
    intros H. apply bind_iff in H. destruct H as ([h t1] & E1 & H). apply bind_iff in H. destruct H as (t2 & E2 & H). apply bind_iff in H. destruct H as ([m t3] & E3 & H).
    apply bind_iff in H. destruct H as ([] & E4 & H). apply bind_iff in H. destruct H as ([] & E5 & H). cbv zeta in H.
    apply num2_iff in E1. apply skip_iff in E2. apply num2_iff in E3. apply within_iff in E4. apply within_iff in E5. destruct E1 as [_ ->], E3 as [_ ->]. subst t1.
    destruct (Ascii.eqb_spec c "+"%char) as [->|NP]; [|destruct (Ascii.eqb_spec c "-"%char) as [->|NM]; [|discriminate]].
    + assert (o = h * 3600 + m * 60) as -> by (assert ((h * 60 + m) * 60 = o) by congruence; lia). assert (t3 = ""%string) as -> by congruence.
      change (zone_is true ("+" ++ two h ++ ":" ++ two m ++ "") (h * 3600 + m * 60)). rewrite append_nil. apply east; assumption.
    + assert (o = - (h * 3600 + m * 60)) as -> by (assert (- ((h * 60 + m) * 60) = o) by congruence; lia). assert (t3 = ""%string) as -> by congruence.
      change (zone_is true ("-" ++ two h ++ ":" ++ two m ++ "") (- (h * 3600 + m * 60))). rewrite append_nil. apply west; assumption.
  - assert (N2 : forall n t, 0 <= n <= 99 -> num2 (two n ++ t) = Some (n, t)) by (intros; apply num2_iff; auto).
    assert (N3 : forall n, 0 <= n <= 99 -> num2 (two n) = Some (n, ""%string)) by (intros; apply num2_iff; auto).
    assert (W : forall lo hi x, lo <= x <= hi -> within lo hi x = Some tt) by (intros; apply within_iff; auto).
    destruct 1 as [|h m Hh Hm|h m Hh Hm]; [reflexivity| |]; cbn [String.append].
    + unfold zone. change (Ascii.eqb "+" "Z")%char with false. cbv iota. rewrite N2 by lia. cbn [bindz]. rewrite (proj2 (skip_iff _ _ _) eq_refl). cbn [bindz]. rewrite N3 by lia. cbn [bindz]. rewrite !W by assumption. cbn [bindz].
      change (Ascii.eqb "+" "+")%char with true. cbv iota zeta. do 2 f_equal. lia.
    + unfold zone. change (Ascii.eqb "-" "Z")%char with false. cbv iota. rewrite N2 by lia. cbn [bindz]. rewrite (proj2 (skip_iff _ _ _) eq_refl). cbn [bindz]. rewrite N3 by lia. cbn [bindz]. rewrite !W by assumption. cbn [bindz].
      change (Ascii.eqb "-" "+")%char with false. change (Ascii.eqb "-" "-")%char with true. cbv iota zeta. do 2 f_equal. lia.
Qed.
Lemma zone_starts s o : zone_is true s o -> exists c t, s = String c t /\ (c = "Z" \/ c = "+" \/ c = "-")%char.
Proof. destruct 1; cbn; eauto 8. Qed.
Lemma tail_iff s ns o : (exists u, fraction s = (ns, u) /\ zone u = Some (o, ""%string)) <-> (exists F Z0, s = (F ++ Z0)%string /\ fraction_is true F ns /\ zone_is true Z0 o).
Proof.
  split.
  - intros (u & E & H). apply zone_iff in H. assert (D : (ns, u) = (0, s) \/ exists p a t l, s = String p (String a t) /\ (p = "."%char \/ p = ","%char) /\ digitz a <> None /\ digits (String a t) = (l, u) /\ ns = nanos l).
    { unfold fraction in E. destruct s as [|p [|a t]]; auto. destruct (Ascii.eqb_spec p "."%char) as [->|N1].
      - cbn [orb] in E. destruct (digitz a) eqn:DA; [|auto]. destruct (digits (String a t)) as [l v] eqn:DD. injection E as E1 E2. right. exists "."%char, a, t, l. subst v. repeat split; auto; congruence.
      - destruct (Ascii.eqb_spec p ","%char) as [->|N2]; [|auto]. cbn [orb] in E. destruct (digitz a) eqn:DA; [|auto]. destruct (digits (String a t)) as [l v] eqn:DD. injection E as E1 E2. right. exists ","%char, a, t, l. subst v. repeat split; auto; congruence. }
    destruct D as [D|(p & a & t & l & -> & P & DA & DD & ->)].
    + injection D as -> ->. exists ""%string, s. repeat split; [constructor|exact H].
    + apply digits_iff in DD. destruct DD as (FL & EQ & ND). rewrite EQ. exists (String p (dtext l)), u. split; [reflexivity|]. split; [|exact H]. rewrite nanos_is by exact FL. constructor; [|exact FL|tauto].
      intros ->. cbn in EQ. subst u. contradiction ND. 
  - intros (F & Z0 & -> & HF & HZ). destruct (zone_starts _ _ HZ) as (c & t & EZ & C). apply zone_iff in HZ. assert (NS : ~ starts_digit Z0) by (subst Z0; cbn; destruct C as [->|[->| ->]]; vm_compute; congruence).
    destruct HF as [|p l NE FL P].
    + exists Z0. split; [|exact HZ]. subst Z0. cbn [String.append]. unfold fraction. destruct t as [|a t]; [reflexivity|]. destruct C as [->|[->| ->]]; reflexivity.
    + exists Z0. split; [|exact HZ]. destruct l as [|d l]; [contradiction|]. cbn [String.append dtext]. unfold fraction.
      assert (PP : (p =? "."%char)%char || (p =? ","%char)%char = true) by (destruct P as [->|[_ ->]]; reflexivity). rewrite PP, digit_char by (inversion FL; assumption).
      assert (DD : digits (String (dchar d) (dtext l ++ Z0)) = (d :: l, Z0)) by (apply digits_iff; auto). rewrite DD. rewrite nanos_is by exact FL. reflexivity.
Qed.
Lemma hour_iff s hh t : (num1 s = Some (hh, String ":"%char t) /\ 0 <= hh <= 23) <-> exists H, s = (H ++ String ":"%char t)%string /\ hour_is true H hh.
Proof.
  rewrite num1_iff. split.
  - intros [[[B ->]|(B & -> & N)] L]; eexists; (split; [reflexivity|]); constructor; auto.
  - intros (H & -> & [h B|h _ B]); (split; [|lia]); [left|right]; repeat split; try lia. cbn. intros X. apply X. reflexivity.
Qed.
Lemma skip_app c t : skipc c (String c "" ++ t) = Some t. Proof. apply skip_iff. reflexivity. Qed.
Theorem parse_iff s t : parseTime s = Some t <-> stamp true s t.
Proof.
  split.
  - unfold parseTime. intros H.
    apply bind_iff in H. destruct H as ([y s1] & E1 & H). apply bind_iff in H. destruct H as (s2 & E2 & H).
    apply bind_iff in H. destruct H as ([m s3] & E3 & H). apply bind_iff in H. destruct H as ([] & E4 & H). apply bind_iff in H. destruct H as (s4 & E5 & H).
    apply bind_iff in H. destruct H as ([d s5] & E6 & H). apply bind_iff in H. destruct H as (s6 & E7 & H).
    apply bind_iff in H. destruct H as ([hh s7] & E8 & H). apply bind_iff in H. destruct H as ([] & E9 & H). apply bind_iff in H. destruct H as (s8 & E10 & H).
    apply bind_iff in H. destruct H as ([mm s9] & E11 & H). apply bind_iff in H. destruct H as ([] & E12 & H). apply bind_iff in H. destruct H as (s10 & E13 & H).
    apply bind_iff in H. destruct H as ([ss s11] & E14 & H). apply bind_iff in H. destruct H as ([] & E15 & H).
    destruct (fraction s11) as [ns s12] eqn:E16. apply bind_iff in H. destruct H as ([o s13] & E17 & H). destruct s13; [|discriminate]. apply bind_iff in H. destruct H as ([] & E18 & H).
    apply num4_iff in E1. apply skip_iff in E2. apply num2_iff in E3. apply within_iff in E4. apply skip_iff in E5. apply num2_iff in E6. apply skip_iff in E7. apply within_iff in E9. apply skip_iff in E10.
    apply num2_iff in E11. apply within_iff in E12. apply skip_iff in E13. apply num2_iff in E14. apply within_iff in E15. apply within_iff in E18. subst s7.
    destruct (proj1 (hour_iff s6 hh s8) (conj E8 E9)) as (HT & -> & HH). destruct (proj1 (tail_iff s11 ns o) (ex_intro _ _ (conj E16 E17))) as (F & Z0 & -> & FF & ZZ).
    destruct E1 as [B1 ->]. subst s1. destruct E3 as [_ ->]. subst s3. destruct E6 as [_ ->]. subst s5. destruct E11 as [_ ->]. subst s9. destruct E14 as [_ ->].
    assert (t = (seconds y m d hh mm ss - o) * 10 ^ 9 + ns) as -> by (rewrite <- unix by lia; congruence). rewrite days_in in E18 by exact E4.
    exact (stamped true y m d HT hh mm ss F ns Z0 o B1 E4 E18 HH E12 E15 FF ZZ).
  - destruct 1 as [y m d HT hh mm ss F ns Z0 off B1 B2 B3 HH B4 B5 FF ZZ]. unfold parseTime.
    assert (DM : month_days y m <= 31) by (unfold month_days; destruct (_ || _), (m =? 2), (leap y); lia).
    assert (HB : 0 <= hh <= 23) by (destruct HH; lia).
    rewrite (proj2 (num4_iff _ y _) (conj B1 eq_refl)). cbn [bindz]. rewrite skip_app. cbn [bindz].
    assert (M99 : 0 <= m <= 99) by lia. rewrite (proj2 (num2_iff _ m _) (conj M99 eq_refl)). cbn [bindz]. rewrite (proj2 (within_iff _ _ _ tt) B2). cbn [bindz]. rewrite skip_app. cbn [bindz].
    assert (D99 : 0 <= d <= 99) by lia. rewrite (proj2 (num2_iff _ d _) (conj D99 eq_refl)). cbn [bindz]. rewrite skip_app. cbn [bindz].
    destruct (proj2 (hour_iff (HT ++ ":" ++ two mm ++ ":" ++ two ss ++ F ++ Z0) hh (two mm ++ ":" ++ two ss ++ F ++ Z0)) (ex_intro _ HT (conj eq_refl HH))) as [EH _]. change (String ":" (two mm ++ ":" ++ two ss ++ F ++ Z0)) with (":" ++ two mm ++ ":" ++ two ss ++ F ++ Z0)%string in EH. rewrite EH. cbn [bindz].
    rewrite (proj2 (within_iff _ _ _ tt) HB). cbn [bindz]. rewrite skip_app. cbn [bindz].
    assert (M9 : 0 <= mm <= 99) by lia. rewrite (proj2 (num2_iff _ mm _) (conj M9 eq_refl)). cbn [bindz]. rewrite (proj2 (within_iff _ _ _ tt) B4). cbn [bindz]. rewrite skip_app. cbn [bindz].
    assert (S9 : 0 <= ss <= 99) by lia. rewrite (proj2 (num2_iff _ ss _) (conj S9 eq_refl)). cbn [bindz]. rewrite (proj2 (within_iff _ _ _ tt) B5). cbn [bindz].
    destruct (proj2 (tail_iff (F ++ Z0) ns off) (ex_intro _ F (ex_intro _ Z0 (conj eq_refl (conj FF ZZ))))) as (u & EF & EZ). rewrite EF, EZ. cbn [bindz].
    rewrite days_in by exact B2. rewrite (proj2 (within_iff _ _ _ tt) B3). cbn [bindz]. rewrite unix by lia. reflexivity.
Qed.
Lemma stamp_loose s t : stamp false s t -> stamp true s t.
Proof.
  destruct 1 as [y m d HT hh mm ss F ns Z0 off B1 B2 B3 HH B4 B5 FF ZZ]. constructor; try assumption.
  - destruct HH as [h B|h X B]; [constructor; exact B|discriminate].
  - destruct FF as [|p l NE FL [P|[X _]]]; [constructor|constructor; auto|discriminate].
  - destruct ZZ as [|h m' B B'|h m' B B']; constructor; lia.
Qed.
Lemma strict_past now k : expired now k -> past now k.
Proof. intros (t & S & L). exists t. split; [apply stamp_loose, S|exact L]. Qed.
Lemma empty_no_stamp t : ~ stamp true "" t.
Proof. intros H. apply parse_iff in H. discriminate. Qed.
Lemma valid_iff k now : isIANAAnchorValid k now = true <-> ~ past now k.
Proof.
  unfold isIANAAnchorValid, past. destruct (String.eqb_spec (kd_until k) "") as [->|NE].
  - split; [|reflexivity]. intros _ (t & S & _). exact (empty_no_stamp t S).
  - destruct (parseTime (kd_until k)) as [t|] eqn:E.
    + rewrite Z.ltb_lt. split; [|intros N; destruct (Z.lt_ge_cases now t) as [L|L]; [exact L|contradiction N; exists t; split; [apply parse_iff, E|exact L]]].
      intros L (t' & S & L'). apply parse_iff in S. assert (t' = t) by congruence. lia.
    + split; [|reflexivity]. intros _ (t & S & _). apply parse_iff in S. congruence.
Qed.
Lemma filtered_picked now ks : picked (fun k => ~ past now k) anchor_of ks (map (fun k => Anchor "." (kd_tag k) (kd_alg k) (kd_type k) (kd_digest k)) (filter (fun k => isIANAAnchorValid k now) ks)).
Proof.
  induction ks as [|k ks IH]; cbn; [constructor|]. destruct (isIANAAnchorValid k now) eqn:V; cbn.
  - apply picked_take; [apply valid_iff, V|repeat split|exact IH].
  - apply picked_skip; [|exact IH]. intros N. apply valid_iff in N. congruence.
Qed.
Lemma picked_unique {A B} (P : A -> Prop) (R : A -> B -> Prop) : (forall x y z, R x y -> R x z -> y = z) -> forall l l1 l2, picked P R l l1 -> picked P R l l2 -> l1 = l2.
Proof.
  intros U l l1 l2 H. revert l2. induction H as [|x l l' N H IH|x y l l' p r H IH]; intros l2 H2; inversion H2; subst; try contradiction; auto. f_equal; [eapply U; eassumption|auto].
Qed.
Lemma anchor_unique k a b : anchor_of k a -> anchor_of k b -> a = b.
Proof. destruct a, b. unfold anchor_of. cbn. intros (-> & -> & -> & -> & ->) (-> & -> & -> & -> & ->). reflexivity. Qed.
Section Fetch.
Context (get : string -> option httpResult) (unmarshal : string -> option (list keydigest)).
Lemma serves_unique url a b : serves get unmarshal url a -> serves get unmarshal url b -> a = b.
Proof. intros (s & x & G & _ & U) (s' & x' & G' & _ & U'). congruence. Qed.
Theorem fetch_iff now url l : fetchTrustAnchors get unmarshal now url = Some l <-> fetched get unmarshal now url l.
Proof.
  split.
  - unfold fetchTrustAnchors. destruct (get url) as [[|status [body|]]|] eqn:G; try discriminate. destruct (Z.ltb_spec status 200); [discriminate|]. destruct (Z.ltb_spec 299 status); [discriminate|]. cbn [orb].
    destruct (unmarshal body) as [ks|] eqn:U; [|discriminate]. cbv zeta. destruct (map _ _) as [|a r] eqn:M; [discriminate|]. intros [= <-]. split; [discriminate|]. exists ks. split; [exists status, body; repeat split; auto|].
    rewrite <- M. apply filtered_picked.
  - intros (NE & ks & (status & body & G & B & U) & P). unfold fetchTrustAnchors. rewrite G. destruct (Z.ltb_spec status 200); [lia|]. destruct (Z.ltb_spec 299 status); [lia|]. cbn [orb]. rewrite U. cbv zeta.
    rewrite (picked_unique _ _ anchor_unique _ _ _ (filtered_picked now ks) P). destruct l; [contradiction|reflexivity].
Qed.
Theorem choose_iff now configured url l : chooseAnchors get unmarshal now configured url = l <-> to_use get unmarshal now url defaultTrustAnchors configured l.
Proof.
  unfold chooseAnchors. cbv zeta. split.
  - destruct configured as [|a c]; [|intros <-; constructor; discriminate]. destruct (String.eqb_spec url "") as [EU|NE]; [intros <-; apply use_builtin; auto|].
    destruct (fetchTrustAnchors get unmarshal now url) as [f|] eqn:E.
    + apply fetch_iff in E. destruct f as [|a f]; [destruct E as [E _]; contradiction|]. intros <-. apply use_fetched; assumption.
    + intros <-. apply use_builtin. right. intros f F. apply fetch_iff in F. congruence.
  - destruct 1 as [c NE|l NE F|H].
    + destruct c; [contradiction|reflexivity].
    + destruct (String.eqb_spec url ""); [contradiction|]. pose proof F as [NL _]. apply fetch_iff in F. rewrite F. destruct l; [contradiction|reflexivity].
    + destruct (String.eqb_spec url ""); [reflexivity|]. destruct H as [H|H]; [contradiction|]. destruct (fetchTrustAnchors get unmarshal now url) as [f|] eqn:E; [|reflexivity]. apply fetch_iff in E. contradiction (H f E).
Qed.
End Fetch.
Lemma never_empty get unmarshal now configured url : chooseAnchors get unmarshal now configured url <> [].
Proof.
  intros H. apply choose_iff in H. inversion H; subst; try congruence. match goal with F : fetched _ _ _ _ _ |- _ => destruct F as [F _]; contradiction end.
Qed.

(** ** The store *)
Definition matching (name : string) (l : list anchor) : list anchor := filter (fun a => String.eqb (canonicalName (a_owner a)) (canonicalName name)) l.
Lemma min_max rs : Forall (fun r => rr_ttl r = MaxUint32) rs -> min_ttl rs = MaxUint32.
Proof.
  unfold min_ttl. induction 1 as [|r rs E F IH]; [reflexivity|]. cbn [fold_left]. rewrite E. rewrite N.ltb_irrefl. exact IH.
Qed.
Lemma matching_app name a b : matching name (a ++ b) = matching name a ++ matching name b.
Proof. apply filter_app. Qed.
Lemma anchors_at now l name : e_ds (getItem (setAnchors now l) name) = match matching name l with [] => None | m => Some (map anchor_ds m, (now + MaxUint32)%N) end.
Proof.
  unfold setAnchors. induction l as [|a l IH] using rev_ind; [reflexivity|]. rewrite fold_left_app. cbn [fold_left]. change (fold_left (fun (s : store) (a0 : anchor) => addDS s now (a_owner a0) [anchor_ds a0]) l []) with (setAnchors now l) in *. set (s := setAnchors now l) in *. unfold addDS at 1. unfold getItem at 1. cbn [lookup].
  rewrite matching_app. unfold matching at 2. cbn [filter]. destruct (String.eqb_spec (canonicalName (a_owner a)) (canonicalName name)) as [E|N].
  - assert (G : getItem s (a_owner a) = getItem s name) by (unfold getItem; rewrite E; reflexivity). cbn [e_ds]. rewrite G, IH.
    assert (R : forall m, (map anchor_ds m ++ [anchor_ds a] = map anchor_ds (m ++ [a]))) by (intros m; rewrite map_app; reflexivity).
    assert (T : forall m, min_ttl (map anchor_ds m) = MaxUint32) by (intros m; apply min_max, Forall_map, Forall_forall; reflexivity).
    destruct (matching name l) as [|b m].
    + change ([] ++ [anchor_ds a]) with (map anchor_ds [a]). rewrite T. reflexivity.
    + rewrite R, T. reflexivity.
  - rewrite app_nil_r. exact IH.
Qed.
Theorem stored get unmarshal now configured url name at_ l :
  0 <= now -> to_use get unmarshal now url defaultTrustAnchors configured l -> Z.of_N at_ <= now / 10 ^ 9 + (2 ^ 32 - 1) ->
  Forall2 ds_of (filter (fun a => String.eqb (canonicalName (a_owner a)) (canonicalName name)) l) (getDS (newValidator get unmarshal now configured url) at_ name).
Proof.
  intros P U L. apply choose_iff in U. unfold newValidator. rewrite U. unfold getDS. rewrite anchors_at. fold (matching name l).
  assert (G : forall m, Forall2 ds_of m (map anchor_ds m)) by (induction m; cbn; constructor; [repeat split|assumption]).
  destruct (matching name l) as [|b m]; [constructor|]. change (2 ^ 32 - 1) with (Z.of_N MaxUint32) in L. pose proof (Z.div_pos now (10 ^ 9) P ltac:(reflexivity)) as D. set (q := now / 10 ^ 9) in *.
  destruct (N.ltb_spec (Z.to_N q + MaxUint32) at_); [unfold MaxUint32 in *; lia|apply G].
Qed.
Lemma picked_in {A B} (P : A -> Prop) (R : A -> B -> Prop) l l' : picked P R l l' -> forall y, In y l' -> exists x, In x l /\ P x /\ R x y.
Proof.
  induction 1 as [|x l l' N H IH|x y l l' p r H IH]; intros z I; [destruct I| |].
  - destruct (IH z I) as (w & W & Q). exists w. split; [right; exact W|exact Q].
  - destruct I as [<-|I]; [exists x; split; [left; reflexivity|auto]|]. destruct (IH z I) as (w & W & Q). exists w. split; [right; exact W|exact Q].
Qed.
Lemma picked_of {A B} (P : A -> Prop) (R : A -> B -> Prop) l l' : picked P R l l' -> forall x, In x l -> P x -> exists y, In y l' /\ R x y.
Proof.
  induction 1 as [|x l l' N H IH|x y l l' p r H IH]; intros z I Q; [destruct I| |].
  - destruct I as [<-|I]; [contradiction|]. exact (IH z I Q).
  - destruct I as [<-|I]; [exists y; split; [left; reflexivity|exact r]|]. destruct (IH z I Q) as (w & W & T). exists w. split; [right; exact W|exact T].
Qed.
Theorem from_unexpired get unmarshal now url l ks : fetchTrustAnchors get unmarshal now url = Some l -> serves get unmarshal url ks ->
  forall a, In a l -> exists k, In k ks /\ anchor_of k a /\ ~ expired now k.
Proof.
  intros H S a I. apply fetch_iff in H. destruct H as (_ & ks' & S' & P). rewrite (serves_unique get unmarshal url _ _ S S'). destruct (picked_in _ _ _ _ P a I) as (k & K & N & R). exists k. repeat split; auto; try apply R.
  intros E. apply N, strict_past, E.
Qed.
Theorem current_used get unmarshal now url ks k : serves get unmarshal url ks -> In k ks -> (kd_until k = ""%string \/ exists t, stamp false (kd_until k) t /\ now < t) ->
  exists l a, fetchTrustAnchors get unmarshal now url = Some l /\ In a l /\ anchor_of k a.
Proof.
  intros S I H. assert (N : ~ past now k).
  { intros (t & T & L). destruct H as [E|(t' & T' & L')]; [rewrite E in T; exact (empty_no_stamp t T)|]. apply stamp_loose, parse_iff in T'. apply parse_iff in T. assert (t = t') by congruence. lia. }
  pose proof (filtered_picked now ks) as P. destruct (picked_of _ _ _ _ P k I N) as (a & A & R). eexists. exists a. split; [|split; [exact A|exact R]]. apply fetch_iff. split; [intros E; rewrite E in A; destruct A|]. exists ks. split; [exact S|exact P].
Qed.
Theorem from_ignored : ~ (forall get unmarshal now url l ks, fetchTrustAnchors get unmarshal now url = Some l -> serves get unmarshal url ks ->
  forall a, In a l -> exists k, In k ks /\ anchor_of k a /\ ~ (exists t, stamp false (kd_from k) t /\ now < t)).
Proof.
  intros H. set (k := KeyDigest "2024-07-18T00:00:00+00:00" "" 38696 8 2 "683d").
  destruct (H (fun _ => Some (HttpResponse 200 (Some ""%string))) (fun _ => Some [k]) (1514764800 * 10 ^ 9) ""%string [Anchor "." 38696 8 2 "683d"] [k] eq_refl) with (a := Anchor "." 38696 8 2 "683d") as (k' & I & _ & N).
  - exists 200, ""%string. repeat split; discriminate.
  - left. reflexivity.
  - destruct I as [<-|[]]. apply N. exists ((seconds 2024 7 18 0 0 0 - (0 * 3600 + 0 * 60)) * 10 ^ 9 + 0). split.
    + exact (stamped false 2024 7 18 "00" 0 0 0 "" 0 "+00:00" (0 * 3600 + 0 * 60) ltac:(lia) ltac:(lia) ltac:(vm_compute; split; discriminate) (hour_two false 0 ltac:(lia)) ltac:(lia) ltac:(lia) (no_fraction false) (east false 0 0 ltac:(lia) ltac:(lia))).
    + rewrite <- unix by lia. vm_compute. reflexivity.
Qed.
Theorem letters_kept : exists get unmarshal now url, fetchTrustAnchors get unmarshal now url = Some [Anchor "." 19036 8 2 "49AA"; Anchor "." 19037 8 2 "49AB"] /\
  serves get unmarshal url [KeyDigest "" "2016-12-31T23:59:60Z" 19036 8 2 "49AA"; KeyDigest "" "2019-01-11t00:00:00z" 19037 8 2 "49AB"] /\ 1735689600 * 10 ^ 9 <= now.
Proof.
  exists (fun _ => Some (HttpResponse 200 (Some ""%string))), (fun _ => Some [KeyDigest "" "2016-12-31T23:59:60Z" 19036 8 2 "49AA"; KeyDigest "" "2019-01-11t00:00:00z" 19037 8 2 "49AB"]), (1735689600 * 10 ^ 9), ""%string.
  split; [vm_compute; reflexivity|]. split; [|lia]. exists 200, ""%string. repeat split; discriminate.
Qed.
