(** Lemmas about the rate limiter. *)
From Verif Require Import Base Bytes Net Cidr_model Cidr_spec Cidr_proofs2 Net_spec Net_proofs Modifiers_model RateLimit_model RateLimit_spec.
From Coq Require Import ZifyBool ZifyNat ZifyN.
Local Open Scope nat_scope.

(** ** Keys *)
Lemma mask_v4 x p : ip_ok x -> is_v4 x -> (p <= 32)%N ->
  ip_mask x (cidr_mask p 4) = land_bytes (canon x) (mask_bytes (N.to_nat p) 4).
Proof.
  intros H V Hp. unfold cidr_mask. replace (p <=? N.of_nat (8 * 4))%N with true by lia. unfold ip_mask, canon.
  destruct (v4_or x H) as [[L E]|[(M & L & E)|(NV & _ & _)]]; [| |contradiction]; rewrite E.
  - cbv zeta. rewrite mask_length. cbn [Nat.eqb andb]. rewrite mask_length, L. cbn [Nat.eqb andb]. rewrite L. reflexivity.
  - cbv zeta. rewrite mask_length. cbn [Nat.eqb andb]. rewrite mask_length, L. cbn [Nat.eqb andb].
    unfold to4 in E. rewrite L in E. cbn [Nat.eqb] in E. destruct (list_eq_dec N.eq_dec (firstn 12 x) v4prefix); [|discriminate E].
    rewrite skipn_length, L. reflexivity.
Qed.
Lemma mask_v6 x p : ip_ok x -> ~ is_v4 x -> (p <= 128)%N -> ip_mask x (cidr_mask p 16) = land_bytes x (mask_bytes (N.to_nat p) 16).
Proof.
  intros H V Hp. unfold cidr_mask. replace (p <=? N.of_nat (8 * 16))%N with true by lia. unfold ip_mask.
  destruct (canon_v6 x H V) as (_ & L & _). cbv zeta. rewrite mask_length, L. cbn [Nat.eqb andb]. rewrite mask_length. cbn [Nat.eqb andb].
  rewrite L. reflexivity.
Qed.

Section Keys.
Variable ipString : bytes -> string.
Variable o : rl_opts.

Lemma key_v4 x : ip_ok x -> is_v4 x -> (rl_prefix4 o <= 32)%N ->
  rl_key ipString o x = ipString (land_bytes (canon x) (mask_bytes (N.to_nat (rl_prefix4 o)) 4)).
Proof.
  intros H V Hp. unfold rl_key. destruct (v4_or x H) as [[L E]|[(M & L & E)|(NV & _ & _)]]; [| |contradiction]; rewrite E;
    rewrite mask_v4; auto.
Qed.
Lemma key_v6 x : ip_ok x -> ~ is_v4 x -> (rl_prefix6 o <= 128)%N ->
  rl_key ipString o x = ipString (land_bytes x (mask_bytes (N.to_nat (rl_prefix6 o)) 16)).
Proof.
  intros H V Hp. unfold rl_key. destruct (v4_or x H) as [[L E]|[(M & L & E)|(_ & _ & E)]]; [exfalso; apply V; left; exact L|exfalso; apply V; right; exact M|].
  rewrite E, mask_v6; auto.
Qed.

Lemma mixed_keys x y : ip_text ipString -> ip_ok x -> ip_ok y -> is_v4 x -> ~ is_v4 y ->
  (rl_prefix4 o <= 32)%N -> (rl_prefix6 o <= 128)%N -> rl_key ipString o x <> rl_key ipString o y.
Proof.
  intros T Hx Hy Vx Vy H4 H6 E. rewrite key_v4 in E by assumption. rewrite key_v6 in E by assumption.
  destruct (canon_v4 x Hx Vx) as (Lx & Bx & _). destruct (canon_v6 y Hy Vy) as (_ & Ly & _).
  pose proof (land_len (canon x) (N.to_nat (rl_prefix4 o)) 4 Lx) as L4.
  pose proof (land_len y (N.to_nat (rl_prefix6 o)) 16 Ly) as L6.
  apply T in E; [|split; [apply land_bytes_ok, Bx|left; exact L4]|split; [apply land_bytes_ok, Hy|right; exact L6]].
  rewrite val128_4 in E by exact L4. rewrite val128_16 in E by exact L6.
  assert (Hb := ipval_lt _ (land_bytes_ok _ (mask_bytes (N.to_nat (rl_prefix4 o)) 4) Bx)). rewrite L4 in Hb.
  change (N.of_nat (8 * 4)) with 32%N in Hb.
  assert (M : mapped (land_bytes y (mask_bytes (N.to_nat (rl_prefix6 o)) 16))).
  { split; [exact L6|]. rewrite <- E. rewrite N.div_add_l by discriminate. rewrite N.div_small by exact Hb. reflexivity. }
  apply Vy. right. apply (masked_mapped y (N.to_nat (rl_prefix6 o)) (proj1 Hy) Ly) in M; [|lia].
  try exact M; try exact (proj1 M); try exact (proj2 M).
Qed.

Lemma key_subnet x y : ip_text ipString -> ip_ok x -> ip_ok y -> (rl_prefix4 o <= 32)%N -> (rl_prefix6 o <= 128)%N ->
  (rl_key ipString o x = rl_key ipString o y <-> same_subnet (rl_prefix4 o) (rl_prefix6 o) x y).
Proof.
  intros T Hx Hy H4 H6. unfold same_subnet.
  destruct (is_v4_dec x Hx) as [Vx|Vx], (is_v4_dec y Hy) as [Vy|Vy].
  - rewrite !key_v4 by assumption.
    destruct (canon_v4 x Hx Vx) as (Lx & Bx & Ex). destruct (canon_v4 y Hy Vy) as (Ly & By & Ey).
    pose proof (land_len (canon x) (N.to_nat (rl_prefix4 o)) 4 Lx) as L4.
    pose proof (land_len (canon y) (N.to_nat (rl_prefix4 o)) 4 Ly) as L4'.
    rewrite (T _ _ (conj (land_bytes_ok _ _ Bx) (or_introl L4)) (conj (land_bytes_ok _ _ By) (or_introl L4'))).
    rewrite !val128_4 by assumption.
    assert (F : land_bytes (canon x) (mask_bytes (N.to_nat (rl_prefix4 o)) 4) = land_bytes (canon y) (mask_bytes (N.to_nat (rl_prefix4 o)) 4) <->
       (ipval (canon x) / 2 ^ (32 - rl_prefix4 o) = ipval (canon y) / 2 ^ (32 - rl_prefix4 o))%N).
    { rewrite (land_eq_iff _ _ _ 4 Bx By Lx Ly) by lia.
      replace (N.of_nat (8 * 4 - N.to_nat (rl_prefix4 o))) with (32 - rl_prefix4 o)%N by lia. reflexivity. }
    assert (G := ipval_lt _ Bx). assert (G' := ipval_lt _ By). rewrite Lx in G. rewrite Ly in G'.
    change (N.of_nat (8 * 4)) with 32%N in *.
    assert (D : ((65535 * 2 ^ 32 + ipval (canon x)) / 2 ^ (32 - rl_prefix4 o) = (65535 * 2 ^ 32 + ipval (canon y)) / 2 ^ (32 - rl_prefix4 o))%N <->
       (ipval (canon x) / 2 ^ (32 - rl_prefix4 o) = ipval (canon y) / 2 ^ (32 - rl_prefix4 o))%N)
      by (apply div_shift; [lia|assumption|assumption]).
    rewrite Ex, Ey. split.
    + intros E. left. split; [exact Vx|]. split; [exact Vy|]. apply D. apply F.
      apply ipval_inj; [apply land_bytes_ok, Bx|apply land_bytes_ok, By|congruence|apply (N.add_cancel_l _ _ (65535 * 2 ^ 32)); exact E].
    + intros [(_ & _ & E)|(E & _)]; [|contradiction]. apply D in E. apply F in E. rewrite E. reflexivity.
  - split; [intros E; exfalso; revert E; apply mixed_keys; assumption|]. intros [(_ & E & _)|(E & _)]; contradiction.
  - split; [intros E; exfalso; symmetry in E; revert E; apply mixed_keys; assumption|]. intros [(E & _)|(_ & E & _)]; contradiction.
  - rewrite !key_v6 by assumption.
    destruct (canon_v6 x Hx Vx) as (_ & Lx & Ex). destruct (canon_v6 y Hy Vy) as (_ & Ly & Ey).
    pose proof (land_len x (N.to_nat (rl_prefix6 o)) 16 Lx) as L6.
    pose proof (land_len y (N.to_nat (rl_prefix6 o)) 16 Ly) as L6'.
    pose proof (proj1 Hx) as Bx. pose proof (proj1 Hy) as By.
    rewrite (T _ _ (conj (land_bytes_ok _ _ Bx) (or_intror L6)) (conj (land_bytes_ok _ _ By) (or_intror L6'))).
    rewrite !val128_16 by assumption.
    assert (F := land_eq_iff _ _ (N.to_nat (rl_prefix6 o)) 16 Bx By Lx Ly ltac:(lia)).
    replace (N.of_nat (8 * 16 - N.to_nat (rl_prefix6 o))) with (128 - rl_prefix6 o)%N in F by lia.
    split.
    + intros E. right. split; [exact Vx|]. split; [exact Vy|]. apply F.
      apply ipval_inj; [apply land_bytes_ok, Bx|apply land_bytes_ok, By|congruence|exact E].
    + intros [(E & _)|(_ & _ & E)]; [contradiction|]. apply F in E. rewrite E. reflexivity.
Qed.
End Keys.

(** ** Windows *)
Lemma window_same w t u : (0 < w)%Z -> (0 <= t)%Z -> (0 <= u)%Z -> (Z.quot t w = Z.quot u w <-> same_window w t u).
Proof.
  intros Hw Ht Hu. rewrite !Z.quot_div_nonneg by lia. split.
  - intros E. exists (t / w)%Z. pose proof (Z.mul_div_le t w Hw). pose proof (Z.mul_succ_div_gt t w Hw).
    pose proof (Z.mul_div_le u w Hw). pose proof (Z.mul_succ_div_gt u w Hw). rewrite <- E in *. lia.
  - intros (k & A & B). rewrite <- (Z.div_unique_pos t w k (t - w * k)), <- (Z.div_unique_pos u w k (u - w * k)); lia.
Qed.

(** ** Counting *)
Lemma count_filter {A} (f : A -> bool) (P : A -> Prop) l : (forall x, In x l -> (f x = true <-> P x)) ->
  forall n, count P l n <-> n = N.of_nat (length (filter f l)).
Proof.
  induction l as [|x l IH]; intros H n.
  - split; [intros C; inversion C; reflexivity|intros ->; constructor].
  - assert (Hx : f x = true <-> P x) by (apply H; left; reflexivity).
    assert (H' : forall y, In y l -> (f y = true <-> P y)) by (intros y Hy; apply H; right; exact Hy).
    specialize (IH H'). cbn [filter]. split.
    + intros C. inversion C as [|? ? m PX CX|? ? m PX CX]; subst.
      * apply Hx in PX. rewrite PX. apply IH in CX. cbn [length]. lia.
      * destruct (f x) eqn:E; [exfalso; apply PX, Hx; reflexivity|]. apply IH in CX. exact CX.
    + intros ->. destruct (f x) eqn:E.
      * cbn [length]. replace (N.of_nat (S (length (filter f l)))) with (N.of_nat (length (filter f l)) + 1)%N by lia.
        apply count_yes; [apply Hx; reflexivity|]. apply IH. reflexivity.
      * apply count_no; [intros PX; apply Hx in PX; discriminate|]. apply IH. reflexivity.
Qed.
