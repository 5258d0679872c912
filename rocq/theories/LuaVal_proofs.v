From Coq Require Import Lia ZifyBool ZifyN.
From Verif Require Import Base Bytes LuaVal_model LuaRR_model LuaRR_spec.
Local Open Scope Z_scope.

Lemma trunc_denotes m e z : denotes (Fin m e) z -> trunc m e = z.
Proof.
  intros (m' & e' & E & A & B). injection E as <- <-. unfold trunc. destruct (Z.leb_spec 0 e) as [L|L].
  - apply A, L.
  - rewrite (B L). rewrite Z.quot_mul; [reflexivity|]. assert (0 < 2 ^ (- e)) by (apply Z.pow_pos_nonneg; lia). lia.
Qed.
Lemma denotes_fun x a b : denotes x a -> denotes x b -> a = b.
Proof. intros A B. destruct A as (m & e & -> & A). rewrite <- (trunc_denotes m e a), <- (trunc_denotes m e b); [reflexivity|exact B|]. exists m, e. auto. Qed.
Lemma uint_bound far w x : (uint far w x < 2 ^ w)%N.
Proof.
  assert (P : (2 ^ w <> 0)%N) by (apply N.pow_nonzero; lia).
  unfold uint. destruct x as [m e|b|]; try (apply N.mod_lt, P).
  destruct ((0 <=? trunc m e) && (trunc m e <? 2 ^ Z.of_N w)) eqn:E; [|apply N.mod_lt, P].
  apply andb_prop in E. destruct E as [A B]. apply Z.leb_le in A. apply Z.ltb_lt in B.
  apply N2Z.inj_lt. rewrite Z2N.id by exact A. rewrite N2Z.inj_pow. exact B.
Qed.
Lemma uint_exact far w x z : denotes x z -> 0 <= z < 2 ^ Z.of_N w -> uint far w x = Z.to_N z.
Proof.
  intros D R. pose proof D as D'. destruct D' as (m & e & -> & _). unfold uint. rewrite (trunc_denotes m e z D).
  destruct (Z.leb_spec 0 z); [|lia]. destruct (Z.ltb_spec z (2 ^ Z.of_N w)); [reflexivity|lia].
Qed.
Lemma uint_stores far w x : stores w x (uint far w x).
Proof. split; [apply uint_bound|]. intros z D R. apply uint_exact; assumption. Qed.
Lemma uint_cut far w x : (w <= 64)%N -> stores w x (uint far 64 x mod 2 ^ w)%N.
Proof.
  intros W. assert (P : (2 ^ w <> 0)%N) by (apply N.pow_nonzero; lia). split; [apply N.mod_lt, P|].
  intros z D R. assert (M : 2 ^ Z.of_N w <= 2 ^ Z.of_N 64) by (apply Z.pow_le_mono_r; lia).
  rewrite (uint_exact far 64 x z D) by lia. apply N.mod_small. apply N2Z.inj_lt. rewrite Z2N.id by apply R. rewrite N2Z.inj_pow. apply R.
Qed.
Lemma denotes_int z : denotes (Fin z 0) z.
Proof. exists z, 0. split; [reflexivity|]. split; [intros _; cbn; lia|lia]. Qed.

Lemma of_uint_close n : close (of_uint n) (Z.of_N n).
Proof.
  unfold of_uint. remember (Z.of_N n) as z eqn:EZ. destruct (Z.ltb_spec z (2 ^ 53)) as [L|L].
  - left. split; [lia|apply denotes_int].
  - assert (Z0 : 0 < z) by (assert (0 < 2 ^ 53) by (apply Z.pow_pos_nonneg; lia); lia).
    destruct (Z.eq_dec z (2 ^ 53)) as [->|NE].
    { left. split; [lia|]. exists (2 ^ 52), 1. split; [reflexivity|]. split; [intros _; reflexivity|lia]. }
    right. split; [lia|].
    assert (K : 53 <= Z.log2 z) by (apply Z.log2_le_pow2; lia).
    destruct (Z.log2_spec z Z0) as [LO HI]. set (k := Z.log2 z - 52). assert (K1 : 1 <= k) by (unfold k; lia).
    assert (P : 0 < 2 ^ k) by (apply Z.pow_pos_nonneg; lia).
    assert (H2 : 2 ^ k = 2 * 2 ^ (k - 1)) by (rewrite <- Z.pow_succ_r by lia; f_equal; lia).
    pose proof (Z.div_mod z (2 ^ k) ltac:(lia)) as DM. pose proof (Z.mod_pos_bound z (2 ^ k) P) as MB.
    set (q := z / 2 ^ k) in *. set (r := z mod 2 ^ k) in *.
    set (m := if (2 ^ (k - 1) <? r) || ((2 ^ (k - 1) =? r) && Z.odd q) then q + 1 else q).
    exists (m * 2 ^ k). split.
    { exists m, k. split; [reflexivity|]. split; [reflexivity|lia]. }
    assert (D : Z.abs (m * 2 ^ k - z) <= 2 ^ (k - 1)).
    { unfold m. destruct (Z.ltb_spec (2 ^ (k - 1)) r); cbn [orb].
      - replace ((q + 1) * 2 ^ k - z) with (2 ^ k - r) by nia. lia.
      - destruct (Z.eqb_spec (2 ^ (k - 1)) r); cbn [andb].
        + destruct (Z.odd q).
          * replace ((q + 1) * 2 ^ k - z) with (2 ^ k - r) by nia. lia.
          * replace (q * 2 ^ k - z) with (- r) by nia. lia.
        + replace (q * 2 ^ k - z) with (- r) by nia. lia. }
    assert (E : 2 ^ (k - 1) * 2 ^ 53 = 2 ^ Z.log2 z) by (rewrite <- Z.pow_add_r by lia; f_equal; unfold k; lia).
    assert (P53 : 0 < 2 ^ 53) by (apply Z.pow_pos_nonneg; lia).
    apply Z.le_trans with (2 ^ (k - 1) * 2 ^ 53); [apply Z.mul_le_mono_nonneg_r; lia|]. rewrite E. exact LO.
Qed.
Lemma of_uint_exact n : (n <= 2 ^ 53)%N -> denotes (of_uint n) (Z.of_N n).
Proof.
  intros L. destruct (of_uint_close n) as [[_ D]|[G _]]; [exact D|]. exfalso. change (2 ^ 53) with (Z.of_N (2 ^ 53)) in G. apply N2Z.inj_lt in G. lia.
Qed.
Lemma of_uint_small n w : (w <= 32)%N -> (n < 2 ^ w)%N -> denotes (of_uint n) (Z.of_N n).
Proof.
  intros W L. apply of_uint_exact. assert ((2 ^ w <= 2 ^ 32)%N) by (apply N.pow_le_mono_r; lia).
  assert ((2 ^ 32 <= 2 ^ 53)%N) by (apply N.pow_le_mono_r; lia). lia.
Qed.
