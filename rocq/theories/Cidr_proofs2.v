(** Address values, masks, and the lines of a CIDR list. *)
From Verif Require Import Base Base_proofs Bytes Net Cidr_model Cidr_spec Cidr_proofs.
From Coq Require Import ZifyBool ZifyNat ZifyN.
Local Open Scope N_scope.

(** ** Values *)
Definition bval (l : list bool) : N := fold_left (fun v b => v * 2 + (if b : bool then 1 else 0)) l 0.

Lemma fold_bval l : forall v, fold_left (fun v b => v * 2 + (if b : bool then 1 else 0)) l v = v * 2 ^ N.of_nat (length l) + bval l.
Proof.
  unfold bval. induction l as [|b l IH]; intros v; [cbn; lia|].
  cbn [fold_left length]. rewrite IH, (IH (0 * 2 + _)). rewrite Nat2N.inj_succ, N.pow_succ_r'.
  set (f := fold_left _ _ _). clearbody f. generalize (2 ^ N.of_nat (length l)). intros k. nia.
Qed.

Lemma bval_cons b l : bval (b :: l) = (if b then 1 else 0) * 2 ^ N.of_nat (length l) + bval l.
Proof. unfold bval. cbn [fold_left]. rewrite fold_bval. f_equal. Qed.

Lemma bval_app a b : bval (a ++ b) = bval a * 2 ^ N.of_nat (length b) + bval b.
Proof. unfold bval at 1. rewrite fold_left_app. rewrite fold_bval. reflexivity. Qed.

Lemma bval_lt l : bval l < 2 ^ N.of_nat (length l).
Proof.
  induction l as [|b l IH]; [reflexivity|]. rewrite bval_cons. cbn [length]. rewrite Nat2N.inj_succ, N.pow_succ_r'.
  destruct b; lia.
Qed.

Lemma bval_inj a : forall b, length a = length b -> bval a = bval b -> a = b.
Proof.
  induction a as [|x a IH]; intros [|y b] L E; try discriminate; [reflexivity|].
  injection L as L. rewrite !bval_cons, <- L in E.
  pose proof (bval_lt a). pose proof (bval_lt b) as Hb. rewrite <- L in Hb.
  assert (x = y) by (destruct x, y; lia). subst y. f_equal. apply IH; [exact L|]. lia.
Qed.

Lemma bval_div l p : (p <= length l)%nat -> bval l / 2 ^ N.of_nat (length l - p) = bval (firstn p l).
Proof.
  intros H. rewrite <- (firstn_skipn p l) at 1. rewrite bval_app, skipn_length.
  rewrite N.div_add_l by (apply N.pow_nonzero; lia).
  rewrite N.div_small; [lia|]. pose proof (bval_lt (skipn p l)) as B. rewrite skipn_length in B. exact B.
Qed.

Lemma fold_ipval a : forall v, fold_left (fun v b => v * 256 + b) a v = v * 2 ^ N.of_nat (8 * length a) + ipval a.
Proof.
  unfold ipval. induction a as [|b a IH]; intros v; [cbn; lia|].
  cbn [fold_left length]. rewrite IH, (IH (0 * 256 + b)).
  replace (N.of_nat (8 * S (length a))) with (8 + N.of_nat (8 * length a)) by lia.
  rewrite N.pow_add_r. change (2 ^ 8) with 256. generalize (2 ^ N.of_nat (8 * length a)). intros k. lia.
Qed.

Lemma ipval_cons b a : ipval (b :: a) = b * 2 ^ N.of_nat (8 * length a) + ipval a.
Proof. unfold ipval. cbn [fold_left]. rewrite fold_ipval. f_equal. Qed.

Lemma ipval_app a b : ipval (a ++ b) = ipval a * 2 ^ N.of_nat (8 * length b) + ipval b.
Proof. unfold ipval at 1. rewrite fold_left_app. apply fold_ipval. Qed.

Definition all_bytes : list N := map N.of_nat (seq 0 256).
Lemma in_all_bytes b : b < 256 -> In b all_bytes.
Proof. intros H. unfold all_bytes. apply in_map_iff. exists (N.to_nat b). split; [lia|]. apply in_seq. lia. Qed.

Lemma byte_bits_val b : b < 256 -> bval (byte_bits b) = b.
Proof.
  intros H. apply in_all_bytes in H. revert b H. apply Forall_forall.
  assert (T : forallb (fun b => N.eqb (bval (byte_bits b)) b) all_bytes = true) by (vm_compute; reflexivity).
  rewrite forallb_forall in T. apply Forall_forall. intros b H. apply N.eqb_eq, T, H.
Qed.

Lemma bits_val a : bytes_ok a -> bval (bits a) = ipval a.
Proof.
  induction 1 as [|b a Hb _ IH]; [reflexivity|]. cbn [bits]. rewrite bval_app, ipval_cons, bits_length, IH.
  rewrite byte_bits_val by exact Hb. reflexivity.
Qed.

Lemma ipval_lt a : bytes_ok a -> ipval a < 2 ^ N.of_nat (8 * length a).
Proof. intros H. rewrite <- (bits_val _ H), <- bits_length. apply bval_lt. Qed.

Lemma bits_inj a : forall b, bytes_ok a -> bytes_ok b -> bits a = bits b -> a = b.
Proof.
  induction a as [|x a IH]; intros [|y b] Ha Hb E.
  - reflexivity.
  - discriminate.
  - discriminate.
  - inversion Ha; inversion Hb; subst. cbn [bits] in E.
    assert (E1 : byte_bits x = byte_bits y) by (injection E; intros; unfold byte_bits; cbn [map]; congruence).
    rewrite E1 in E. apply app_inv_head in E. f_equal; [|apply IH; assumption].
    rewrite <- (byte_bits_val x), <- (byte_bits_val y), E1 by assumption. reflexivity.
Qed.

Lemma ipval_inj a b : bytes_ok a -> bytes_ok b -> length a = length b -> ipval a = ipval b -> a = b.
Proof.
  intros Ha Hb L E. apply bits_inj; try assumption. apply bval_inj; [rewrite !bits_length; lia|].
  rewrite !bits_val by assumption. exact E.
Qed.

(** Networks in terms of bits *)
Lemma in_net_bits a p x : bytes_ok a -> bytes_ok x -> (p <= 8 * length a)%nat -> length a = length x ->
  (in_net a p x <-> firstn p (bits a) = firstn p (bits x)).
Proof.
  intros Ha Hx Hp L. unfold in_net. cbv zeta.
  rewrite <- (bits_val a), <- (bits_val x) by assumption.
  rewrite <- (bits_length a). rewrite bval_div by (rewrite bits_length; exact Hp).
  replace (length (bits a)) with (length (bits x)) by (rewrite !bits_length; lia).
  rewrite bval_div by (rewrite bits_length; lia).
  split.
  - intros [_ E]. apply bval_inj; [|exact E]. rewrite !firstn_length, !bits_length. lia.
  - intros E. split; [exact L|]. rewrite E. reflexivity.
Qed.

Lemma prefixb_firstn b x : prefixb b x <-> firstn (length b) x = b.
Proof.
  split.
  - intros (y & ->). rewrite firstn_app, Nat.sub_diag, firstn_O, app_nil_r. apply firstn_all.
  - intros <-. exists (skipn (length b) x). symmetry. apply firstn_skipn.
Qed.

(** ** Masks *)
Lemma mask_byte b k : b < 256 -> k <= 8 -> N.land b ((256 - 2 ^ k) mod 256) = b / 2 ^ k * 2 ^ k.
Proof.
  intros Hb Hk. apply in_all_bytes in Hb.
  assert (T : forallb (fun b => forallb (fun k => N.eqb (N.land b ((256 - 2 ^ k) mod 256)) (b / 2 ^ k * 2 ^ k)) [0;1;2;3;4;5;6;7;8]) all_bytes = true)
    by (vm_compute; reflexivity).
  rewrite forallb_forall in T. specialize (T b Hb). rewrite forallb_forall in T. apply N.eqb_eq, T.
  assert (K : k = 0 \/ k = 1 \/ k = 2 \/ k = 3 \/ k = 4 \/ k = 5 \/ k = 6 \/ k = 7 \/ k = 8) by lia.
  cbn [In]. intuition.
Qed.

Lemma land_bytes_length a : forall p, length (land_bytes a (mask_bytes p (length a))) = length a.
Proof. induction a as [|b a IH]; intros p; [reflexivity|]. cbn [length mask_bytes land_bytes]. rewrite IH. reflexivity. Qed.

Lemma land_lt a b : a < 256 -> N.land a b < 256.
Proof.
  intros H. destruct (N.eq_dec (N.land a b) 0) as [E|E]; [lia|]. apply N.log2_lt_pow2 with (b := 8); [lia|].
  pose proof (N.log2_land a b) as L. destruct (N.eq_dec a 0) as [-> |Z]; [cbn in E; lia|].
  assert (N.log2 a < 8) by (apply N.log2_lt_pow2; [lia|exact H]). lia.
Qed.

Lemma land_bytes_ok a : forall m, bytes_ok a -> bytes_ok (land_bytes a m).
Proof.
  induction a as [|b a IH]; intros [|y m] H; try constructor; inversion H; subst; [apply land_lt; assumption|].
  apply IH. assumption.
Qed.

Lemma land_bytes_val a : forall p, bytes_ok a -> (p <= 8 * length a)%nat ->
  ipval (land_bytes a (mask_bytes p (length a))) =
  ipval a / 2 ^ N.of_nat (8 * length a - p) * 2 ^ N.of_nat (8 * length a - p).
Proof.
  induction a as [|b a IH]; intros p H Hp.
  - cbn [length] in Hp. replace p with 0%nat by lia. reflexivity.
  - inversion H as [|? ? Hb Ha]; subst. cbn [length mask_bytes land_bytes].
    rewrite !ipval_cons, land_bytes_length.
    pose proof (ipval_lt a Ha) as Lt. set (w := (8 * length a)%nat) in *.
    replace (8 * S (length a))%nat with (w + 8)%nat by (subst w; lia).
    destruct (Nat.leb 8 p) eqn:L.
    + apply Nat.leb_le in L. rewrite IH by (try assumption; subst w; cbn [length] in Hp; lia).
      change (255 mod 256) with 255. assert (E : N.land b 255 = b).
      { change 255 with (N.ones 8). rewrite N.land_ones. apply N.mod_small. exact Hb. }
      rewrite E. replace (w + 8 - p)%nat with (w - (p - 8))%nat by (cbn [length] in Hp; subst w; lia).
      set (h := (w - (p - 8))%nat). assert (Hh : (h <= w)%nat) by (subst h; lia).
      assert (P : 2 ^ N.of_nat w = 2 ^ N.of_nat (w - h) * 2 ^ N.of_nat h).
      { rewrite <- N.pow_add_r. f_equal. lia. }
      rewrite P. rewrite N.mul_assoc. rewrite N.div_add_l by (apply N.pow_nonzero; lia).
      rewrite N.mul_add_distr_r. fold w. reflexivity.
    + apply Nat.leb_gt in L. replace (p - 8)%nat with 0%nat by lia.
      rewrite mask_byte by (try exact Hb; lia).
      rewrite IH by (auto; lia). fold w. rewrite Nat.sub_0_r.
      rewrite (N.div_small (ipval a)) by exact Lt. rewrite N.mul_0_l, N.add_0_r.
      replace (N.of_nat (w + 8 - p)) with (N.of_nat w + N.of_nat (8 - p)) by lia.
      rewrite N.pow_add_r. rewrite <- N.div_div by (apply N.pow_nonzero; lia).
      rewrite N.div_add_l by (apply N.pow_nonzero; lia).
      rewrite (N.div_small (ipval a)) by exact Lt. rewrite N.add_0_r. ring.
Qed.

Lemma land_first_addr a p : bytes_ok a -> (p <= 8 * length a)%nat -> first_addr a p (land_bytes a (mask_bytes p (length a))).
Proof.
  intros H Hp. split; [apply land_bytes_ok, H|]. split; [apply land_bytes_length|]. apply land_bytes_val; assumption.
Qed.

Lemma first_addr_in_net a p f : first_addr a p f -> in_net a p f.
Proof.
  intros (Hf & L & E). split; [symmetry; exact L|]. cbv zeta in *. rewrite E. symmetry. apply N.div_mul. apply N.pow_nonzero. lia.
Qed.

Lemma land_bits a p : bytes_ok a -> (p <= 8 * length a)%nat ->
  firstn p (bits (land_bytes a (mask_bytes p (length a)))) = firstn p (bits a).
Proof.
  intros H Hp. pose proof (land_first_addr a p H Hp) as F. pose proof (first_addr_in_net _ _ _ F) as I.
  destruct F as (Hf & L & _). symmetry. apply in_net_bits; auto.
Qed.

(** ** Mapped addresses *)
Lemma to4_4 a : length a = 4%nat -> to4 a = Some a.
Proof. intros H. unfold to4. rewrite H. reflexivity. Qed.

Lemma to4_16 a : bytes_ok a -> length a = 16%nat ->
  (mapped a -> to4 a = Some (skipn 12 a)) /\ (~ mapped a -> to4 a = None).
Proof.
  intros Ha L. assert (L12 : length (firstn 12 a) = 12%nat) by (rewrite firstn_length; lia).
  assert (V : ipval a / 2 ^ 32 = ipval (firstn 12 a)).
  { rewrite <- (firstn_skipn 12 a) at 1. rewrite ipval_app, skipn_length, L. change (8 * (16 - 12))%nat with 32%nat.
    change (N.of_nat 32) with 32. rewrite N.div_add_l by discriminate. rewrite N.div_small; [lia|].
    assert (B : bytes_ok (skipn 12 a)) by (rewrite <- (firstn_skipn 12 a) in Ha; apply Forall_app in Ha; tauto).
    pose proof (ipval_lt _ B) as T. rewrite skipn_length, L in T. exact T. }
  assert (Hv : mapped a <-> firstn 12 a = v4prefix).
  { unfold mapped. rewrite V. split.
    - intros [_ E]. apply ipval_inj.
      + rewrite <- (firstn_skipn 12 a) in Ha. apply Forall_app in Ha. tauto.
      + unfold v4prefix. repeat constructor.
      + exact L12.
      + rewrite E. reflexivity.
    - intros ->. split; [exact L|reflexivity]. }
  unfold to4. rewrite L. cbn [Nat.eqb]. destruct (list_eq_dec N.eq_dec (firstn 12 a) v4prefix) as [E|E]; split; intros M; try reflexivity.
  - destruct M. apply Hv, E.
  - destruct E. apply Hv, M.
Qed.

Lemma mapped_dec a : bytes_ok a -> length a = 16%nat -> mapped a \/ ~ mapped a.
Proof.
  intros _ L. unfold mapped. destruct (N.eq_dec (ipval a / 2 ^ 32) 65535) as [E|E]; [left; split; assumption|right; intros [_ E']; contradiction].
Qed.

Lemma to16_to4 a : ip_ok a -> ~ mapped a ->
  match to4 (match to16 a with Some x => x | None => a end) with None => length a = 16%nat | Some _ => length a = 4%nat end.
Proof.
  intros [Ha [L|L]] M.
  - unfold to16. rewrite L. cbn [Nat.eqb]. unfold to4. rewrite app_length, L. cbn [v4prefix length Nat.add Nat.eqb].
    rewrite firstn_app. cbn [v4prefix length Nat.sub firstn app]. destruct (list_eq_dec _ _ _) as [_|n]; [reflexivity|]. destruct n. reflexivity.
  - unfold to16. rewrite L. cbn [Nat.eqb]. rewrite (proj2 (to4_16 a Ha L) M). reflexivity.
Qed.
