From Verif Require Import Base Base_proofs.
From Verif Require Export Bytes.
From Coq Require Import ZifyBool ZifyNat ZifyN.
Open Scope N_scope.
Ltac Zify.zify_post_hook ::= Z.div_mod_to_equations.

Lemma string_bytes_inv s : string_of_bytes (bytes_of_string s) = s.
Proof.
  unfold string_of_bytes, bytes_of_string. rewrite map_map.
  rewrite (map_ext (fun x => ascii_of_N (N_of_ascii x)) (fun x => x)) by apply ascii_N_embedding.
  rewrite map_id. apply string_of_list_ascii_of_string.
Qed.

Lemma bytes_of_string_inj a b : bytes_of_string a = bytes_of_string b -> a = b.
Proof. intros H. rewrite <- (string_bytes_inv a), <- (string_bytes_inv b), H. reflexivity. Qed.

Lemma bytes_of_string_ok s : bytes_ok (bytes_of_string s).
Proof.
  unfold bytes_of_string, bytes_ok. rewrite Forall_map. apply Forall_forall. intros c _.
  unfold byte_ok. destruct c as [[] [] [] [] [] [] [] []]; vm_compute; reflexivity.
Qed.

Lemma bytes_of_string_length s : length (bytes_of_string s) = String.length s.
Proof. unfold bytes_of_string. rewrite map_length. induction s; simpl; congruence. Qed.

Lemma de16_be16 n l : n < 65536 -> de16 (be16 n ++ l) = n.
Proof. unfold de16, be16. cbn [app nth]. lia. Qed.

Lemma be16_inj a b : a < 65536 -> b < 65536 -> be16 a = be16 b -> a = b.
Proof. intros Ha Hb H. rewrite <- (de16_be16 a [] Ha), <- (de16_be16 b [] Hb), H. reflexivity. Qed.

Lemma de64_be64 n l : n < 2^64 -> de64 (be64 n ++ l) = n.
Proof.
  intros H. unfold de64, be64. cbn [app nth].
  assert (D : forall k, n / 2^(8 * (k + 1)) = n / 2^(8 * k) / 256).
  { intros k. rewrite N.div_div by (try discriminate; apply N.pow_nonzero; discriminate). change 256 with (2^8). rewrite <- N.pow_add_r. f_equal. f_equal. lia. }
  pose proof (D 0) as D0. pose proof (D 1) as D1. pose proof (D 2) as D2. pose proof (D 3) as D3. pose proof (D 4) as D4. pose proof (D 5) as D5.
  pose proof (D 6) as D6. clear D. cbn [N.mul N.add Pos.mul Pos.add Pos.succ] in *. rewrite N.div_1_r in D0.
  assert (n / 2^56 < 256) by (apply N.div_lt_upper_bound; [discriminate|exact H]).
  rewrite (N.mod_small (n / 2^56)) by assumption.
  generalize dependent (n / 2^56). generalize dependent (n / 2^48). generalize dependent (n / 2^40). generalize dependent (n / 2^32).
  generalize dependent (n / 2^24). generalize dependent (n / 2^16). generalize dependent (n / 2^8).
  intros q1 D0 q2 D1 q3 D2 q4 D3 q5 D4 q6 D5 q7 D6 _. clear H.
  pose proof (N.div_mod n 256 ltac:(discriminate)). pose proof (N.div_mod q1 256 ltac:(discriminate)). pose proof (N.div_mod q2 256 ltac:(discriminate)).
  pose proof (N.div_mod q3 256 ltac:(discriminate)). pose proof (N.div_mod q4 256 ltac:(discriminate)). pose proof (N.div_mod q5 256 ltac:(discriminate)).
  pose proof (N.div_mod q6 256 ltac:(discriminate)).
  rewrite <- D0, <- D1, <- D2, <- D3, <- D4, <- D5, <- D6 in *.
  clear D0 D1 D2 D3 D4 D5 D6. generalize dependent (n mod 256). generalize dependent (q1 mod 256). generalize dependent (q2 mod 256).
  generalize dependent (q3 mod 256). generalize dependent (q4 mod 256). generalize dependent (q5 mod 256). generalize dependent (q6 mod 256).
  intros. change (2^8) with 256 in *. change (2^16) with 65536 in *. change (2^24) with 16777216 in *.
  change (2^32) with 4294967296 in *. change (2^40) with 1099511627776 in *.
  change (2^48) with 281474976710656 in *. change (2^56) with 72057594037927936 in *. lia.
Qed.

Lemma i64_u64 z : i64_ok z -> i64_of_u64 (u64_of_i64 z) = z.
Proof.
  unfold i64_ok, i64_of_u64, u64_of_i64. intros H.
  change (2^63)%Z with 9223372036854775808%Z in *. change (2^64)%Z with 18446744073709551616%Z in *.
  change (2^63) with 9223372036854775808.
  destruct (N.ltb_spec (Z.to_N (z mod 18446744073709551616)) 9223372036854775808); lia.
Qed.

Lemma u64_of_i64_lt z : u64_of_i64 z < 2^64.
Proof.
  unfold u64_of_i64. change (2^64)%Z with 18446744073709551616%Z. change (2^64) with 18446744073709551616. lia.
Qed.

Lemma be16_length n : length (be16 n) = 2%nat. Proof. reflexivity. Qed.
Lemma be64_length n : length (be64 n) = 8%nat. Proof. reflexivity. Qed.
