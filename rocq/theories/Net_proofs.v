(** Lemmas about net.IPNet. *)
From Verif Require Import Base Bytes Net Cidr_model Cidr_spec Cidr_proofs2 Net_spec.
From Coq Require Import ZifyBool ZifyNat ZifyN.
Local Open Scope nat_scope.

(** The network ParseCIDR returns for address a and length p *)
Definition net_of (a : bytes) (p : nat) : ipnet := IPNet (land_bytes a (mask_bytes p (length a))) (mask_bytes p (length a)).

Lemma mask_length p n : length (mask_bytes p n) = n.
Proof. revert p. induction n as [|n IH]; intros p; [reflexivity|]. cbn [mask_bytes length]. rewrite IH. reflexivity. Qed.

Lemma and_eq_land m : forall a b, length a = length m -> length b = length m ->
  (and_eq a b m = true <-> land_bytes a m = land_bytes b m).
Proof.
  induction m as [|z m IH]; intros [|x a] [|y b] La Lb; try discriminate; cbn [and_eq land_bytes].
  - split; reflexivity.
  - cbn [length] in *. rewrite andb_true_iff, N.eqb_eq, IH by lia. split; [intros [-> ->]; reflexivity|intros H; injection H; auto].
Qed.

Lemma land_idem m : forall a, land_bytes (land_bytes a m) m = land_bytes a m.
Proof. induction m as [|z m IH]; intros [|x a]; cbn [land_bytes]; try reflexivity. rewrite IH, <- N.land_assoc, N.land_diag. reflexivity. Qed.

Lemma land_skip k : forall a m, skipn k (land_bytes a m) = land_bytes (skipn k a) (skipn k m).
Proof. induction k as [|k IH]; intros [|x a] [|y m]; cbn [skipn land_bytes]; try reflexivity; try apply IH. destruct (skipn k a); reflexivity. Qed.
Lemma land_first k : forall a m, firstn k (land_bytes a m) = land_bytes (firstn k a) (firstn k m).
Proof. induction k as [|k IH]; intros [|x a] [|y m]; cbn [firstn land_bytes]; try reflexivity. rewrite IH. reflexivity. Qed.

Lemma land_len b p n : length b = n -> length (land_bytes b (mask_bytes p n)) = n.
Proof. intros <-. apply land_bytes_length. Qed.
Lemma land_val b p n : length b = n -> bytes_ok b -> p <= 8 * n ->
  ipval (land_bytes b (mask_bytes p n)) = (ipval b / 2 ^ N.of_nat (8 * n - p) * 2 ^ N.of_nat (8 * n - p))%N.
Proof. intros <-. apply land_bytes_val. Qed.

(** Equal after masking iff the first bits are equal *)
Lemma land_eq_iff a b p n : bytes_ok a -> bytes_ok b -> length a = n -> length b = n -> p <= 8 * n ->
  (land_bytes a (mask_bytes p n) = land_bytes b (mask_bytes p n) <->
   (ipval a / 2 ^ N.of_nat (8 * n - p) = ipval b / 2 ^ N.of_nat (8 * n - p))%N).
Proof.
  intros Ha Hb La Lb Hp. split.
  - intros E. apply (f_equal ipval) in E. rewrite !land_val in E by assumption.
    apply N.mul_cancel_r in E; [exact E|]. apply N.pow_nonzero. discriminate.
  - intros E. apply ipval_inj; [apply land_bytes_ok, Ha|apply land_bytes_ok, Hb|rewrite !land_len by assumption; reflexivity|].
    rewrite !land_val by assumption. rewrite E. reflexivity.
Qed.

Lemma val128_4 x : length x = 4 -> val128 x = (65535 * 2 ^ 32 + ipval x)%N.
Proof. intros H. unfold val128. rewrite H. reflexivity. Qed.
Lemma val128_16 x : length x = 16 -> val128 x = ipval x.
Proof. intros H. unfold val128. rewrite H. reflexivity. Qed.

(** Dividing shifts the constant part out. *)
Lemma div_shift c v w h k : (h <= k -> v < 2 ^ k -> w < 2 ^ k ->
  ((c * 2 ^ k + v) / 2 ^ h = (c * 2 ^ k + w) / 2 ^ h <-> v / 2 ^ h = w / 2 ^ h))%N.
Proof.
  intros Hh _ _. replace k with (k - h + h)%N by lia. rewrite N.pow_add_r, N.mul_assoc.
  rewrite !N.div_add_l by (apply N.pow_nonzero; discriminate). lia.
Qed.

Lemma v4_or a : ip_ok a -> (length a = 4 /\ to4 a = Some a) \/ (mapped a /\ length a = 16 /\ to4 a = Some (skipn 12 a)) \/ (~ is_v4 a /\ length a = 16 /\ to4 a = None).
Proof.
  intros [Ha [L|L]].
  - left. split; [exact L|apply to4_4, L].
  - destruct (mapped_dec a Ha L) as [M|M]; right; [left|right].
    + split; [exact M|]. split; [exact L|]. apply (proj1 (to4_16 a Ha L)), M.
    + split; [intros [H|H]; [lia|contradiction]|]. split; [exact L|]. apply (proj2 (to4_16 a Ha L)), M.
Qed.

Lemma bytes_ok_skip k a : bytes_ok a -> bytes_ok (skipn k a).
Proof. intros H. apply Forall_forall. intros x I. eapply Forall_forall; [exact H|]. rewrite <- (firstn_skipn k a). apply in_or_app. right. exact I. Qed.
Lemma bytes_ok_first k a : bytes_ok a -> bytes_ok (firstn k a).
Proof. intros H. apply Forall_forall. intros x I. eapply Forall_forall; [exact H|]. rewrite <- (firstn_skipn k a). apply in_or_app. left. exact I. Qed.

Lemma split12 a : length a = 16 -> bytes_ok a -> (ipval a = ipval (firstn 12 a) * 2 ^ 32 + ipval (skipn 12 a))%N.
Proof.
  intros L _. rewrite <- (firstn_skipn 12 a) at 1. rewrite ipval_app. f_equal. rewrite skipn_length, L. reflexivity.
Qed.

(** The plain form of an address *)
Lemma canon_v4 x : ip_ok x -> is_v4 x -> length (canon x) = 4 /\ bytes_ok (canon x) /\ val128 x = (65535 * 2 ^ 32 + ipval (canon x))%N.
Proof.
  intros O V. destruct (v4_or x O) as [[L T]|[(M & L & T)|(N & _)]]; [| |contradiction]; unfold canon; rewrite T.
  - split; [exact L|]. split; [exact (proj1 O)|apply val128_4, L].
  - split; [rewrite skipn_length; lia|]. split; [apply bytes_ok_skip, (proj1 O)|]. rewrite val128_16 by exact L.
    pose proof (split12 x L (proj1 O)) as S. destruct M as [_ M].
    pose proof (ipval_lt (skipn 12 x) (bytes_ok_skip 12 x (proj1 O))) as B. rewrite skipn_length, L in B.
    change (2 ^ N.of_nat (8 * (16 - 12)))%N with (2 ^ 32)%N in B. rewrite S in M |- *. rewrite N.div_add_l in M by discriminate.
    rewrite N.div_small in M by exact B. rewrite N.add_0_r in M. rewrite M. reflexivity.
Qed.
Lemma canon_v6 x : ip_ok x -> ~ is_v4 x -> canon x = x /\ length x = 16 /\ val128 x = ipval x.
Proof.
  intros O V. destruct (v4_or x O) as [[L T]|[(M & L & T)|(N & L & T)]].
  - destruct V. left. exact L.
  - destruct V. right. exact M.
  - unfold canon. rewrite T. split; [reflexivity|]. split; [exact L|]. apply val128_16, L.
Qed.
Lemma is_v4_dec x : ip_ok x -> is_v4 x \/ ~ is_v4 x.
Proof.
  intros O. destruct (v4_or x O) as [[L T]|[(M & L & T)|(N & L & T)]]; [left; left; exact L|left; right; exact M|right; exact N].
Qed.

Lemma mask_skip p : 96 <= p -> skipn 12 (mask_bytes p 16) = mask_bytes (p - 96) 4.
Proof.
  intros H. assert (G : forall k n q, 8 * k <= q -> skipn k (mask_bytes q (k + n)) = mask_bytes (q - 8 * k) n).
  { induction k as [|k IH]; intros n q Hq; [cbn [skipn Nat.add]; f_equal; lia|]. cbn [Nat.add mask_bytes skipn]. rewrite IH by lia. f_equal. lia. }
  exact (G 12 4 p H).
Qed.

(** A masked address is IPv4-mapped only if the address is and the first 96 bits stay. *)
Lemma masked_mapped a p : bytes_ok a -> length a = 16 -> p <= 128 ->
  (mapped (land_bytes a (mask_bytes p 16)) <-> mapped a /\ 96 <= p).
Proof.
  intros Ha L Hp. pose proof (land_bytes_val a p Ha) as V. rewrite L in V. specialize (V ltac:(lia)).
  pose proof (land_bytes_length a p) as Ll. rewrite L in Ll.
  assert (Hv := ipval_lt a Ha). rewrite L in Hv. change (N.of_nat (8 * 16)) with 128%N in Hv.
  unfold mapped. rewrite Ll, L, V. replace (N.of_nat (8 * 16 - p)) with (128 - N.of_nat p)%N by lia.
  destruct (Nat.le_gt_cases 96 p) as [G|G].
  - set (h := (128 - N.of_nat p)%N). assert (h <= 32)%N by lia.
    assert (E : (ipval a / 2 ^ h * 2 ^ h / 2 ^ 32 = ipval a / 2 ^ 32)%N).
    { replace 32%N with (h + (32 - h))%N by lia. rewrite N.pow_add_r, <- !N.div_div by (apply N.pow_nonzero; discriminate).
      rewrite N.div_mul by (apply N.pow_nonzero; discriminate). reflexivity. }
    rewrite E. split; [intros [_ H']; split; [split; [reflexivity|exact H']|exact G]|intros [[_ H'] _]; split; [reflexivity|exact H']].
  - split; [|intros [_ H]; lia]. intros [_ E]. exfalso.
    set (h := (128 - N.of_nat p)%N) in *. assert (32 < h)%N by lia.
    replace h with (h - 32 + 32)%N in E at 2 by lia. rewrite N.pow_add_r, N.mul_assoc, N.div_mul in E by discriminate.
    replace (h - 32)%N with (N.succ (h - 33)) in E by lia. rewrite N.pow_succ_r' in E. 
    assert (N.even 65535 = true); [|discriminate]. rewrite <- E, N.mul_assoc, (N.mul_comm _ 2), <- N.mul_assoc, N.even_mul. reflexivity.
Qed.

Lemma land_ok_ip a p : ip_ok a -> ip_ok (land_bytes a (mask_bytes p (length a))).
Proof. intros [Ha L]. split; [apply land_bytes_ok, Ha|]. rewrite land_bytes_length. exact L. Qed.

Theorem contains_has a p x : ip_ok a -> ip_ok x -> p <= 8 * length a ->
  (ipnet_contains (net_of a p) x = true <-> net_has a p x).
Proof.
  intros Oa Ox Hp. pose proof (land_ok_ip a p Oa) as Of. unfold net_of, ipnet_contains, netnum_mask. cbn [n_ip n_mask].
  destruct Oa as [Ha [L|L]].
  - (* IPv4 network *)
    rewrite (to4_4 (land_bytes _ _)) by (rewrite land_bytes_length; exact L). rewrite land_bytes_length, mask_length, L. cbn [Nat.eqb].
    unfold net_has, plen. rewrite L. cbn [Nat.eqb]. rewrite val128_4 by exact L.
    assert (Ll : length (land_bytes a (mask_bytes p 4)) = 4) by (apply land_len, L).
    rewrite Ll. destruct (is_v4_dec x Ox) as [V|V].
    + destruct (canon_v4 x Ox V) as (Lc & Hc & Ec). rewrite Lc. cbn [Nat.eqb]. rewrite Ec.
      rewrite and_eq_land by (rewrite mask_length; lia). rewrite land_idem.
      rewrite land_eq_iff by (try assumption; lia).
      replace (128 - (96 + N.of_nat p))%N with (N.of_nat (8 * 4 - p)) by lia.
      pose proof (ipval_lt a Ha) as Ba. pose proof (ipval_lt (canon x) Hc) as Bc. rewrite L in Ba. rewrite Lc in Bc.
      rewrite div_shift by (try assumption; lia). split; [intros E; split; [exact E|lia]|intros [E _]; exact E].
    + destruct (canon_v6 x Ox V) as (Ec & Lx & Vx). rewrite Ec, Lx. cbn [Nat.eqb]. split; [discriminate|]. intros [E _]. exfalso. apply V. right.
      split; [exact Lx|]. rewrite Vx in E. pose proof (ipval_lt a Ha) as Ba. rewrite L in Ba. change (N.of_nat (8 * 4)) with 32%N in Ba.
      set (h := (128 - (96 + N.of_nat p))%N) in E. assert (h <= 32)%N by lia.
      assert (E2 : ((65535 * 2 ^ 32 + ipval a) / 2 ^ h / 2 ^ (32 - h) = ipval x / 2 ^ h / 2 ^ (32 - h))%N) by (rewrite E; reflexivity).
      rewrite !N.div_div, <- N.pow_add_r in E2 by (apply N.pow_nonzero; discriminate). replace (h + (32 - h))%N with 32%N in E2 by lia.
      rewrite <- E2, N.div_add_l by discriminate. rewrite N.div_small by exact Ba. reflexivity.
  - pose proof (masked_mapped a p Ha L ltac:(lia)) as MM. rewrite L in *.
    assert (Ll : length (land_bytes a (mask_bytes p 16)) = 16) by (apply land_len, L).
    assert (Lm : length (mask_bytes p 16) = 16) by apply mask_length.
    unfold net_has, plen. rewrite L. cbn [Nat.eqb]. rewrite val128_16 by exact L.
    destruct (v4_or _ Of) as [[L4 _]|[(M & _ & T)|(NM & _ & T)]]; [lia| |]; rewrite T.
    + (* mapped network *)
      apply MM in M. destruct M as [M Hp96]. pose proof (conj Ha (or_intror L) : ip_ok a) as Oa.
      destruct (canon_v4 a Oa (or_intror M)) as (La & Hca & Eca). rewrite val128_16 in Eca by exact L.
      assert (Ca : canon a = skipn 12 a). { unfold canon. rewrite (proj1 (to4_16 a Ha L) M). reflexivity. }
      rewrite skipn_length, Ll, Lm. cbn [Nat.eqb Nat.sub]. rewrite skipn_length, Ll. cbn [Nat.sub].
      rewrite land_skip, mask_skip by exact Hp96. rewrite <- Ca.
      destruct (is_v4_dec x Ox) as [V|V].
      * destruct (canon_v4 x Ox V) as (Lc & Hc & Ec). rewrite Lc. cbn [Nat.eqb]. rewrite Ec, Eca.
        rewrite and_eq_land by (rewrite mask_length; try lia; apply land_len, La). rewrite land_idem.
        rewrite land_eq_iff by (try assumption; lia).
        replace (128 - N.of_nat p)%N with (N.of_nat (8 * 4 - (p - 96))) by lia.
        pose proof (ipval_lt (canon a) Hca) as Ba. pose proof (ipval_lt (canon x) Hc) as Bc. rewrite La in Ba. rewrite Lc in Bc.
        rewrite div_shift by (try assumption; lia). split; [intros E; split; [exact E|lia]|intros [E _]; exact E].
      * destruct (canon_v6 x Ox V) as (Ec & Lx & Vx). rewrite Ec, Lx. cbn [Nat.eqb]. split; [discriminate|]. intros [E _]. exfalso. apply V. right.
        split; [exact Lx|]. rewrite Vx in E. destruct M as [_ M].
        set (h := (128 - N.of_nat p)%N) in E. assert (h <= 32)%N by lia.
        assert (E2 : (ipval a / 2 ^ h / 2 ^ (32 - h) = ipval x / 2 ^ h / 2 ^ (32 - h))%N) by (rewrite E; reflexivity).
        rewrite !N.div_div, <- N.pow_add_r in E2 by (apply N.pow_nonzero; discriminate). replace (h + (32 - h))%N with 32%N in E2 by lia.
        rewrite <- E2. exact M.
    + (* other IPv6 network *)
      rewrite Ll, Lm. cbn [Nat.eqb]. rewrite Ll. cbn [Nat.eqb].
      destruct (is_v4_dec x Ox) as [V|V].
      * destruct (canon_v4 x Ox V) as (Lc & Hc & Ec). rewrite Lc, Ll. cbn [Nat.eqb]. split; [discriminate|]. intros [E H].
        exfalso. destruct (N.lt_ge_cases (N.of_nat p) 96) as [G|G]; [exact (H G V)|]. apply NM. right. apply MM. split; [|lia].
        split; [exact L|]. rewrite Ec in E. pose proof (ipval_lt (canon x) Hc) as Bc. rewrite Lc in Bc. change (N.of_nat (8 * 4)) with 32%N in Bc.
        set (h := (128 - N.of_nat p)%N) in E. assert (h <= 32)%N by lia.
        assert (E2 : (ipval a / 2 ^ h / 2 ^ (32 - h) = (65535 * 2 ^ 32 + ipval (canon x)) / 2 ^ h / 2 ^ (32 - h))%N) by (rewrite E; reflexivity).
        rewrite !N.div_div, <- N.pow_add_r in E2 by (apply N.pow_nonzero; discriminate). replace (h + (32 - h))%N with 32%N in E2 by lia.
        rewrite E2, N.div_add_l by discriminate. rewrite N.div_small by exact Bc. reflexivity.
      * destruct (canon_v6 x Ox V) as (Ec & Lx & Vx). rewrite Ec, Lx, Ll. cbn [Nat.eqb]. rewrite Vx.
        rewrite and_eq_land by lia. rewrite land_idem. rewrite land_eq_iff by (try assumption; try exact (proj1 Ox); lia).
        replace (128 - N.of_nat p)%N with (N.of_nat (8 * 16 - p)) by lia.
        split; [intros E; split; [exact E|]; intros _; exact V|intros [E _]; exact E].
Qed.

(** A nil address is in no network. *)
Lemma contains_nil n : ipnet_contains n [] = true -> netnum_mask n = ([], []).
Proof.
  unfold ipnet_contains. change (canon []) with (@nil N). cbn [length].
  unfold netnum_mask. destruct (match to4 (n_ip n) with Some x => x | None => _ end) as [|b l] eqn:E; [reflexivity|]. cbn [length Nat.eqb].
  destruct (Nat.eqb (length (n_mask n)) 4), (Nat.eqb (length l) 3) eqn:E3; cbn [length Nat.eqb]; try discriminate; try reflexivity.
  all: destruct (Nat.eqb (length (n_mask n)) 16); cbn [length Nat.eqb]; try discriminate; reflexivity.
Qed.
Lemma contains_nil_net a p : ip_ok a -> ipnet_contains (net_of a p) [] = false.
Proof.
  intros Oa. destruct (ipnet_contains (net_of a p) []) eqn:E; [|reflexivity]. apply contains_nil in E. exfalso. revert E.
  pose proof (land_ok_ip a p Oa) as Of. unfold netnum_mask, net_of. cbn [n_ip n_mask]. rewrite mask_length.
  destruct (v4_or _ Of) as [[L T]|[(M & L & T)|(NM & L & T)]]; rewrite T; rewrite land_bytes_length in L.
  - rewrite !land_bytes_length, L. cbn [Nat.eqb]. intros E. apply (f_equal (fun x => length (fst x))) in E. cbn [fst] in E. rewrite land_len in E by exact L. cbn [length] in E. lia.
  - rewrite skipn_length, land_bytes_length, L. cbn [Nat.eqb Nat.sub]. intros E. apply (f_equal (fun x => length (fst x))) in E. cbn [fst] in E.
    rewrite skipn_length in E. rewrite land_len in E by exact L. cbn [length] in E. lia.
  - rewrite !land_bytes_length, L. cbn [Nat.eqb]. rewrite land_len by exact L. cbn [Nat.eqb].
    intros E. apply (f_equal (fun x => length (fst x))) in E. cbn [fst] in E. rewrite land_len in E by exact L. cbn [length] in E. lia.
Qed.
