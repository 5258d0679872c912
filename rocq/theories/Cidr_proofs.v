(** Lemmas about the trie of CIDR lists. *)
From Verif Require Import Base Base_proofs Bytes Net Cidr_model Cidr_spec.
From Coq Require Import ZifyBool ZifyNat ZifyN.
Local Open Scope nat_scope.

(** ** Bits of an address *)
Definition byte_bits (b : N) : list bool := map (N.testbit b) [7; 6; 5; 4; 3; 2; 1; 0]%N.
Fixpoint bits (a : bytes) : list bool := match a with [] => [] | b :: a' => byte_bits b ++ bits a' end.

Lemma bits_length a : length (bits a) = 8 * length a.
Proof. induction a as [|b a IH]; [reflexivity|]. cbn [bits]. rewrite app_length, IH. cbn [length byte_bits map]. lia. Qed.

Lemma land_pow_testbit b k : negb (N.eqb (N.land b (2 ^ k)) 0) = N.testbit b k.
Proof.
  destruct (N.testbit b k) eqn:E.
  - apply Bool.negb_true_iff, N.eqb_neq. intros H.
    assert (T : N.testbit (N.land b (2 ^ k)) k = true) by (rewrite N.land_spec, E, N.pow2_bits_true; reflexivity).
    rewrite H, N.bits_0 in T. discriminate.
  - apply Bool.negb_false_iff, N.eqb_eq. apply N.bits_inj. intros j. rewrite N.land_spec, N.bits_0.
    destruct (N.eq_dec k j) as [<-|n]; [rewrite E; reflexivity|]. rewrite N.pow2_bits_false by exact n. apply andb_false_r.
Qed.

Lemma bit_bits a n : bit a n = nth_error (bits a) n.
Proof.
  revert n. induction a as [|b a IH]; intros n.
  - unfold bit. destruct (n / 8), n; reflexivity.
  - destruct (Nat.ltb n 8) eqn:L.
    + apply Nat.ltb_lt in L. unfold bit. rewrite Nat.div_small, Nat.mod_small by exact L. cbn [nth_error].
      do 8 (destruct n as [|n]; [cbn -[N.land N.testbit]; f_equal;
        match goal with |- negb (N.eqb (N.land b ?m) 0) = N.testbit b ?k => exact (land_pow_testbit b k) end|]). lia.
    + apply Nat.ltb_ge in L. cbn [bits]. rewrite nth_error_app2 by exact L. cbn [byte_bits map length].
      rewrite <- IH. unfold bit.
      assert (E1 : n / 8 = S ((n - 8) / 8)).
      { replace n with (n - 8 + 1 * 8) at 1 by lia. rewrite Nat.div_add by lia. lia. }
      assert (E2 : n mod 8 = (n - 8) mod 8).
      { replace n with (n - 8 + 1 * 8) at 1 by lia. apply Nat.mod_add. lia. }
      rewrite E1, E2. reflexivity.
Qed.

(** ** The trie in terms of bit lists *)
Fixpoint addb (bs : list bool) (p : node) : node :=
  match bs with
  | [] => Nd None None true
  | b :: bs' =>
      match p with
      | Nd l r true => Nd None None true
      | Nd l r false =>
          if b then Nd l (Some (addb bs' (match r with Some x => x | None => new_node end))) false
          else Nd (Some (addb bs' (match l with Some x => x | None => new_node end))) r false
      end
  end.

Lemma nth_skipn {A} (l : list A) i x : nth_error l i = Some x -> skipn i l = x :: skipn (S i) l.
Proof.
  revert i. induction l as [|y l IH]; intros [|i]; cbn [nth_error]; try discriminate.
  - intros [= ->]. reflexivity.
  - intros H. cbn [skipn]. rewrite (IH _ H). reflexivity.
Qed.

Lemma add_from_bits a k : forall i p, i + k <= 8 * length a ->
  add_from a k i p = Some (addb (firstn k (skipn i (bits a))) p).
Proof.
  induction k as [|k IH]; intros i p H; [reflexivity|].
  cbn [add_from]. rewrite bit_bits.
  destruct (nth_error (bits a) i) as [b|] eqn:E.
  2: { apply nth_error_None in E. rewrite bits_length in E. lia. }
  rewrite (nth_skipn _ _ _ E). cbn [firstn addb].
  destruct p as [l r [|]]; [reflexivity|].
  destruct b; rewrite IH by lia; reflexivity.
Qed.

Fixpoint walkb (bs : list bool) (i : nat) (p : node) : option nat :=
  match bs with
  | [] => Some i
  | b :: bs' =>
      match p with
      | Nd l r leaf => if leaf then Some i
                       else match (if b then r else l) with None => None | Some q => walkb bs' (S i) q end
      end
  end.

Lemma walk_bits a k : forall i p, i + k <= 8 * length a ->
  walk a k i p = Some (walkb (firstn k (skipn i (bits a))) i p).
Proof.
  induction k as [|k IH]; intros i p H; [reflexivity|].
  cbn [walk]. rewrite bit_bits.
  destruct (nth_error (bits a) i) as [b|] eqn:E.
  2: { apply nth_error_None in E. rewrite bits_length in E. lia. }
  rewrite (nth_skipn _ _ _ E). cbn [firstn walkb].
  destruct p as [l r [|]]; [reflexivity|].
  destruct (if b then r else l) as [q|]; [|reflexivity]. apply IH. lia.
Qed.

(** Paths that end at a leaf *)
Fixpoint leafp (p : node) (bs : list bool) : Prop :=
  match p with
  | Nd l r leaf =>
      match bs with
      | [] => leaf = true
      | b :: bs' => leaf = false /\ match (if b then r else l) with None => False | Some q => leafp q bs' end
      end
  end.

Definition prefixb (a x : list bool) : Prop := exists y, x = a ++ y.

Lemma leafp_add bs : forall p x, leafp (addb bs p) x -> leafp p x \/ x = bs.
Proof.
  induction bs as [|b bs IH]; intros p x H.
  - cbn [addb] in H. destruct x as [|c x]; [right; reflexivity|]. destruct H as [H _]. discriminate.
  - cbn [addb] in H. destruct p as [l r [|]].
    + destruct x as [|c x]; [left; reflexivity|]. destruct H as [H _]. discriminate.
    + destruct x as [|c x]; [destruct b; discriminate H|].
      destruct b, c; cbn [leafp] in H; destruct H as [_ H].
      * destruct (IH _ _ H) as [H'| ->]; [|right; reflexivity]. left. split; [reflexivity|].
        destruct r as [r|]; [exact H'|]. destruct x as [|d x]; [discriminate H'|]. destruct H' as [_ H']. destruct d; destruct H'.
      * left. split; [reflexivity|exact H].
      * left. split; [reflexivity|exact H].
      * destruct (IH _ _ H) as [H'| ->]; [|right; reflexivity]. left. split; [reflexivity|].
        destruct l as [l|]; [exact H'|]. destruct x as [|d x]; [discriminate H'|]. destruct H' as [_ H']. destruct d; destruct H'.
Qed.

(** Is there a leaf on the way *)
Definition mem (p : node) (x : list bool) : Prop := exists a, prefixb a x /\ leafp p a.

Lemma mem_nil p : mem p [] <-> is_leaf p = true.
Proof.
  split.
  - intros (a & (y & Hy) & H). destruct a; [|discriminate]. destruct p. exact H.
  - intros H. exists []. split; [exists []; reflexivity|]. destruct p. exact H.
Qed.

Lemma mem_cons l r f b x : mem (Nd l r f) (b :: x) <->
  f = true \/ (f = false /\ match (if b then r else l) with None => False | Some q => mem q x end).
Proof.
  split.
  - intros (a & (y & Hy) & H). destruct a as [|c a]; [left; exact H|]. injection Hy as -> ->.
    destruct H as [Hf H]. right. split; [exact Hf|]. destruct (if c then r else l); [|destruct H].
    exists a. split; [exists y; reflexivity|exact H].
  - intros [H|[Hf H]]; [exists []; split; [eexists; reflexivity|exact H]|].
    destruct (if b then r else l) as [q|] eqn:E; [|destruct H]. destruct H as (a & (y & ->) & H).
    exists (b :: a). split; [exists y; reflexivity|]. cbn [leafp]. rewrite E. split; assumption.
Qed.

Lemma mem_new x : ~ mem new_node x.
Proof.
  destruct x as [|b x]; [rewrite mem_nil; discriminate|]. unfold new_node. rewrite mem_cons. intros [H|[_ H]]; [discriminate|]. destruct b; exact H.
Qed.

Lemma prefixb_cons a b x y : prefixb (a :: x) (b :: y) <-> a = b /\ prefixb x y.
Proof.
  split.
  - intros (z & H). injection H as <- ->. split; [reflexivity|]. exists z. reflexivity.
  - intros (-> & z & ->). exists z. reflexivity.
Qed.

Lemma mem_add bs : forall p x, mem (addb bs p) x <-> mem p x \/ prefixb bs x.
Proof.
  induction bs as [|b bs IH]; intros p x.
  - cbn [addb]. split; [intros _; right; exists x; reflexivity|]. intros _. exists []. split; [exists x; reflexivity|reflexivity].
  - cbn [addb]. destruct p as [l r [|]].
    + assert (T : forall l r, mem (Nd l r true) x). { intros. exists []. split; [exists x; reflexivity|reflexivity]. }
      split; intros; [left; apply T|apply T].
    + destruct x as [|c x].
      { rewrite !mem_nil. split.
        - destruct b; discriminate.
        - intros [H|(y & H)]; discriminate. }
      rewrite prefixb_cons.
      destruct b; rewrite !mem_cons; destruct c; cbn [negb].
      * rewrite IH. destruct r as [r|].
        -- intuition congruence.
        -- pose proof (mem_new x). intuition congruence.
      * intuition congruence.
      * intuition congruence.
      * rewrite IH. destruct l as [l|].
        -- intuition congruence.
        -- pose proof (mem_new x). intuition congruence.
Qed.

(** Below every node there is a leaf. *)
Fixpoint good (p : node) : Prop :=
  match p with
  | Nd l r leaf =>
      leaf = true \/
      ((l <> None \/ r <> None) /\ match l with Some q => good q | None => True end /\ match r with Some q => good q | None => True end)
  end.

Fixpoint good_leaf p : good p -> exists b, leafp p b.
Proof.
  destruct p as [l r f]. cbn [good]. intros [H|(C & Gl & Gr)]; [exists []; exact H|].
  destruct f; [exists []; reflexivity|].
  destruct l as [q|]; [|destruct r as [q|]; [|destruct C as [C|C]; destruct C; reflexivity]].
  - destruct (good_leaf q Gl) as (b & Hb). exists (false :: b). split; [reflexivity|exact Hb].
  - destruct (good_leaf q Gr) as (b & Hb). exists (true :: b). split; [reflexivity|exact Hb].
Qed.

Lemma good_add bs : forall p, good p \/ p = new_node -> good (addb bs p).
Proof.
  induction bs as [|b bs IH]; intros p H; [left; reflexivity|].
  cbn [addb]. destruct p as [l r [|]]; [left; reflexivity|].
  assert (Hl : match l with Some q => good q | None => True end).
  { destruct H as [[H|(_ & H & _)]|H]; [discriminate|exact H|]. unfold new_node in H. injection H as -> _. exact I. }
  assert (Hr : match r with Some q => good q | None => True end).
  { destruct H as [[H|(_ & _ & H)]|H]; [discriminate|exact H|]. unfold new_node in H. injection H as _ ->. exact I. }
  destruct b; cbn [good]; right.
  - split; [right; discriminate|]. split; [exact Hl|]. apply IH. destruct r; [left; exact Hr|right; reflexivity].
  - split; [left; discriminate|]. split; [|exact Hr]. apply IH. destruct l; [left; exact Hl|right; reflexivity].
Qed.

Lemma walkb_ge bs : forall i p j, walkb bs i p = Some j -> i <= j /\ j <= i + length bs.
Proof.
  induction bs as [|b bs IH]; intros i p j H.
  - injection H as <-. cbn. lia.
  - cbn [walkb] in H. destruct p as [l r [|]]; [injection H as <-; cbn; lia|].
    destruct (if b then r else l) as [q|]; [|discriminate]. apply IH in H. cbn [length]. lia.
Qed.

Lemma prefixb_nil x : prefixb [] x.
Proof. exists x. reflexivity. Qed.

Lemma walkb_some bs : forall i p j, good p -> walkb bs i p = Some j ->
  exists b, leafp p b /\ j = i + Nat.min (length b) (length bs) /\ firstn (j - i) b = firstn (j - i) bs.
Proof.
  induction bs as [|b bs IH]; intros i p j G H.
  - injection H as <-. destruct (good_leaf p G) as (b & Hb). exists b. split; [exact Hb|]. cbn [length]. rewrite Nat.min_0_r, Nat.add_0_r, Nat.sub_diag. split; reflexivity.
  - cbn [walkb] in H. destruct p as [l r [|]].
    + injection H as <-. exists []. cbn [length]. rewrite Nat.sub_diag. split; [reflexivity|]. split; [lia|reflexivity].
    + cbn [good] in G. destruct G as [G|(_ & Gl & Gr)]; [discriminate|].
      destruct (if b then r else l) as [q|] eqn:E; [|discriminate].
      pose proof (walkb_ge _ _ _ _ H) as Ge.
      destruct (IH _ q _ ltac:(destruct b; subst; assumption) H) as (x & Hx & Ej & Ef).
      exists (b :: x). split; [split; [reflexivity|]; rewrite E; exact Hx|]. cbn [length]. split; [lia|].
      replace (j - i) with (S (j - S i)) by lia. cbn [firstn]. rewrite Ef. reflexivity.
Qed.

Lemma walkb_none bs : forall i p, walkb bs i p = None -> forall b, leafp p b -> ~ prefixb b bs /\ ~ prefixb bs b.
Proof.
  induction bs as [|b bs IH]; intros i p H; [discriminate|].
  cbn [walkb] in H. destruct p as [l r [|]]; [discriminate|]. intros x Hx.
  destruct x as [|c x]; [discriminate Hx|]. destruct Hx as [_ Hx]. rewrite !prefixb_cons.
  destruct (Bool.bool_dec c b) as [->|n]; [|split; intros [E _]; congruence].
  destruct (if b then r else l) as [q|]; [|destruct Hx].
  destruct (IH _ _ H x Hx) as [A B]. tauto.
Qed.

Lemma prefixb_linear a b x : prefixb a x -> prefixb b x -> prefixb a b \/ prefixb b a.
Proof.
  revert b x. induction a as [|c a IH]; intros b x A B; [left; apply prefixb_nil|].
  destruct b as [|d b]; [right; apply prefixb_nil|]. destruct x as [|e x]; [destruct A as (y & A); discriminate|].
  rewrite prefixb_cons in *. destruct A as [-> A], B as [-> B]. rewrite !prefixb_cons. destruct (IH b x A B); tauto.
Qed.
Lemma prefixb_trans a b c : prefixb a b -> prefixb b c -> prefixb a c.
Proof. intros (x & ->) (y & ->). exists (x ++ y). symmetry. apply app_assoc. Qed.

(** ** A trie holding a list of prefixes *)
Definition holds (t : option node) (L : list (list bool)) : Prop :=
  match t with
  | None => L = []
  | Some p => good p /\ (forall x, mem p x <-> exists b, In b L /\ prefixb b x) /\ (forall b, leafp p b -> In b L)
  end.

Lemma holds_add t L a k : holds t L -> k <= 8 * length a ->
  exists t', match add_from a k 0 (match t with Some x => x | None => new_node end) with
             | None => None | Some x => Some (Some x) end = Some t' /\ holds t' (firstn k (bits a) :: L).
Proof.
  intros H Hk. rewrite add_from_bits by lia. cbn [skipn]. eexists. split; [reflexivity|].
  unfold holds. destruct t as [p|].
  - destruct H as (B & M & Lf). split; [apply good_add; left; exact B|]. split.
    + intros x. rewrite mem_add, M. split.
      * intros [(b & Hb & P)|P]; [exists b; split; [right; exact Hb|exact P]|]. eexists. split; [left; reflexivity|exact P].
      * intros (b & [<-|Hb] & P); [right; exact P|]. left. exists b. split; assumption.
    + intros b Hb. apply leafp_add in Hb. destruct Hb as [Hb| ->]; [right; apply Lf, Hb|left; reflexivity].
  - cbn in H. subst L. split; [apply good_add; right; reflexivity|]. split.
    + intros x. rewrite mem_add. pose proof (mem_new x). split.
      * intros [P|P]; [contradiction|]. eexists. split; [left; reflexivity|exact P].
      * intros (b & [<-|[]] & P). right. exact P.
    + intros b Hb. apply leafp_add in Hb. destruct Hb as [Hb| ->]; [|left; reflexivity].
      destruct b as [|c b]; [discriminate Hb|]. destruct Hb as [_ Hb]. destruct c; destruct Hb.
Qed.

Lemma holds_walk p L a : holds (Some p) L ->
  match walk a (8 * length a) 0 p with
  | None => False
  | Some None => forall b, In b L -> ~ prefixb b (bits a) /\ ~ prefixb (bits a) b
  | Some (Some i) => exists b, In b L /\ i = Nat.min (length b) (8 * length a) /\ firstn i b = firstn i (bits a)
  end.
Proof.
  intros (B & M & Lf). rewrite walk_bits by lia. cbn [skipn].
  assert (E : firstn (8 * length a) (bits a) = bits a) by (apply firstn_all2; rewrite bits_length; lia).
  rewrite E. destruct (walkb (bits a) 0 p) as [i|] eqn:W.
  - destruct (walkb_some _ _ _ _ B W) as (b & Hb & Ei & Ef). rewrite bits_length in Ei. rewrite Nat.sub_0_r in Ef.
    exists b. split; [apply Lf, Hb|]. split; assumption.
  - intros b Hb. assert (Mb : mem p b) by (apply M; exists b; split; [exact Hb|exists []; symmetry; apply app_nil_r]).
    destruct Mb as (c & Pc & Hc). pose proof (walkb_none _ _ _ W c Hc) as [N1 N2]. split; intros P.
    + apply N1. exact (prefixb_trans _ _ _ Pc P).
    + destruct (prefixb_linear _ _ _ Pc P); contradiction.
Qed.
