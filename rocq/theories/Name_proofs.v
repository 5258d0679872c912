(** Lemmas about names. *)
From Verif Require Import Base Base_proofs Bytes Name_model Name_spec.
From Coq Require Import ZifyBool ZifyNat ZifyN.
Open Scope N_scope.

(** ** Bytes *)
Lemma all_bytes (P : N -> bool) : forallb P (map N.of_nat (List.seq 0 256)) = true -> forall b, b < 256 -> P b = true.
Proof.
  intros H b Hb. rewrite forallb_forall in H. apply H. apply in_map_iff. exists (N.to_nat b). split; [lia|]. apply in_seq. lia.
Qed.

(** ** Comparison *)
Lemma bytes_compare_eq a b : bytes_compare a b = Eq <-> a = b.
Proof.
  revert b. induction a as [|x a IH]; intros [|y b]; cbn [bytes_compare]; try (split; [discriminate|discriminate]); [split; reflexivity|].
  destruct (N.compare_spec x y) as [->|L|L].
  - rewrite IH. split; [intros ->; reflexivity|intros E; congruence].
  - split; [discriminate|intros E; injection E as -> _; lia].
  - split; [discriminate|intros E; injection E as -> _; lia].
Qed.
Lemma bytes_compare_lt a b : bytes_compare a b = Lt <-> label_lt a b.
Proof.
  revert b. induction a as [|x a IH]; intros [|y b]; cbn [bytes_compare].
  - split; [discriminate|intros H; inversion H].
  - split; [intros _; constructor|reflexivity].
  - split; [discriminate|intros H; inversion H].
  - destruct (N.compare_spec x y) as [->|L|L].
    + rewrite IH. split; [apply ll_tail|]. intros H. inversion H; subst; [lia|assumption].
    + split; [intros _; apply ll_head, L|reflexivity].
    + split; [discriminate|]. intros H. inversion H; subst; lia.
Qed.
Lemma bytes_compare_sym a b : bytes_compare b a = CompOpp (bytes_compare a b).
Proof.
  revert b. induction a as [|x a IH]; intros [|y b]; cbn [bytes_compare]; try reflexivity. rewrite (N.compare_antisym x y).
  destruct (N.compare x y); cbn [CompOpp]; [apply IH|reflexivity|reflexivity].
Qed.
Lemma labels_compare_eq a b : labels_compare a b = Eq <-> a = b.
Proof.
  revert b. induction a as [|x a IH]; intros [|y b]; cbn [labels_compare]; try (split; [discriminate|discriminate]); [split; reflexivity|].
  destruct (bytes_compare x y) eqn:C.
  - apply bytes_compare_eq in C. subst y. rewrite IH. split; [intros ->; reflexivity|intros E; congruence].
  - split; [discriminate|]. intros E. injection E as -> _. assert (X : bytes_compare y y = Eq) by (apply bytes_compare_eq; reflexivity). congruence.
  - split; [discriminate|]. intros E. injection E as -> _. assert (X : bytes_compare y y = Eq) by (apply bytes_compare_eq; reflexivity). congruence.
Qed.
Lemma labels_compare_lt a b : labels_compare a b = Lt <-> labels_lt a b.
Proof.
  revert b. induction a as [|x a IH]; intros [|y b]; cbn [labels_compare].
  - split; [discriminate|intros H; inversion H].
  - split; [intros _; constructor|reflexivity].
  - split; [discriminate|intros H; inversion H].
  - destruct (bytes_compare x y) eqn:C.
    + apply bytes_compare_eq in C. subst y. rewrite IH. split; [apply nl_tail|]. intros H. inversion H as [|? ? ? ? L|? ? ? L]; subst; [|assumption].
      apply bytes_compare_lt in L. assert (X : bytes_compare x x = Eq) by (apply bytes_compare_eq; reflexivity). congruence.
    + split; [intros _; apply nl_head, bytes_compare_lt, C|reflexivity].
    + split; [discriminate|]. intros H. inversion H as [|? ? ? ? L|? ? ? L]; subst.
      * apply bytes_compare_lt in L. congruence.
      * assert (X : bytes_compare y y = Eq) by (apply bytes_compare_eq; reflexivity). congruence.
Qed.
Lemma labels_compare_sym a b : labels_compare b a = CompOpp (labels_compare a b).
Proof.
  revert b. induction a as [|x a IH]; intros [|y b]; cbn [labels_compare]; try reflexivity. rewrite (bytes_compare_sym x y).
  destruct (bytes_compare x y); cbn [CompOpp]; [apply IH|reflexivity|reflexivity].
Qed.
Lemma label_lt_trans a b c : label_lt a b -> label_lt b c -> label_lt a c.
Proof.
  intros H. revert c. induction H as [y b|x y a b L|x a b H IH]; intros c G; inversion G; subst;
  first [apply ll_nil|apply ll_head; lia|apply ll_tail, IH; assumption].
Qed.
Lemma labels_lt_trans a b c : labels_lt a b -> labels_lt b c -> labels_lt a c.
Proof.
  intros H. revert c. induction H as [y b|x y a b L|x a b H IH]; intros c G; inversion G; subst;
  first [apply nl_nil|apply nl_head; first [assumption|apply (label_lt_trans _ y); assumption]|apply nl_tail, IH; assumption].
Qed.
Lemma labels_lt_irrefl a : ~ labels_lt a a.
Proof. intros H. apply labels_compare_lt in H. assert (X : labels_compare a a = Eq) by (apply labels_compare_eq; reflexivity). congruence. Qed.
Lemma labels_lt_total a b : labels_lt a b \/ a = b \/ labels_lt b a.
Proof.
  destruct (labels_compare a b) eqn:C.
  - right. left. apply labels_compare_eq, C.
  - left. apply labels_compare_lt, C.
  - right. right. apply labels_compare_lt. rewrite labels_compare_sym, C. reflexivity.
Qed.
(** Everything below n is contiguous. *)
Lemma labels_lt_prefix n : forall a c y, labels_lt (n ++ a) y -> labels_lt y (n ++ c) -> exists b, y = n ++ b.
Proof.
  induction n as [|x n IH]; intros a c y A C; [exists y; reflexivity|]. cbn [app] in *. destruct y as [|z y]; [inversion A|].
  assert (x = z) as <-.
  { inversion A as [|? ? ? ? L1|]; inversion C as [|? ? ? ? L2|]; subst; try reflexivity.
    pose proof (label_lt_trans _ _ _ L1 L2) as L. apply bytes_compare_lt in L. assert (X : bytes_compare x x = Eq) by (apply bytes_compare_eq; reflexivity). congruence. }
  assert (A' : labels_lt (n ++ a) y).
  { inversion A as [|? ? ? ? L|]; subst; [|assumption]. apply bytes_compare_lt in L. assert (X : bytes_compare x x = Eq) by (apply bytes_compare_eq; reflexivity). congruence. }
  assert (C' : labels_lt y (n ++ c)).
  { inversion C as [|? ? ? ? L|]; subst; [|assumption]. apply bytes_compare_lt in L. assert (X : bytes_compare x x = Eq) by (apply bytes_compare_eq; reflexivity). congruence. }
  destruct (IH a c y A' C') as (b & ->). exists b. reflexivity.
Qed.
Lemma labels_lt_app n a b : labels_lt a b -> labels_lt (n ++ a) (n ++ b).
Proof. intros H. induction n; [exact H|apply nl_tail; assumption]. Qed.

(** ** What a name on the wire looks like *)
Lemma show_byte_lower : forall b, b < 256 -> (lower (show_byte b) =? show_byte (lc b))%string = true.
Proof. apply all_bytes. vm_compute. reflexivity. Qed.
Lemma show_label_lower l : Forall (fun b => b < 256) l -> lower (show_label l) = show_label (map lc l).
Proof.
  induction 1 as [|b l B _ IH]; [reflexivity|]. cbn [show_label map]. rewrite lower_app, IH. f_equal. apply String.eqb_eq, show_byte_lower, B.
Qed.
Lemma lower_cons c s : lower (String c s) = String (lower_ascii c) (lower s).
Proof. reflexivity. Qed.
Lemma show_labels_lower n : name_ok n -> lower (show_labels n) = show_labels (lname n).
Proof.
  induction 1 as [|l n [_ L] _ IH]; [reflexivity|]. cbn [show_labels lname map]. fold (lname n). rewrite lower_app, show_label_lower by exact L. rewrite lower_cons. rewrite IH. reflexivity.
Qed.
Lemma show_lower n : name_ok n -> lower (show n) = show (lname n).
Proof. intros H. unfold show. destruct n as [|l n]; [reflexivity|]. rewrite show_labels_lower by exact H. reflexivity. Qed.

(** Reading a byte back *)
Definition byte_cases (b : N) : bool :=
  match show_byte b with
  | String c EmptyString => negb (Ascii.eqb c backslash) && negb (Ascii.eqb c dot) && (N_of_ascii c =? b)
  | String c (String d EmptyString) => Ascii.eqb c backslash && negb (isDigit d) && (N_of_ascii d =? b)
  | String c (String d1 (String d2 (String d3 EmptyString))) =>
      Ascii.eqb c backslash && isDigit d1 && isDigit d2 && isDigit d3 && ((digit_val d1 * 100 + digit_val d2 * 10 + digit_val d3) mod 256 =? b)
      && negb (Ascii.eqb d2 backslash) && negb (Ascii.eqb d2 dot) && negb (Ascii.eqb d3 backslash) && negb (Ascii.eqb d3 dot)
  | _ => false
  end.
Lemma byte_cases_ok : forall b, b < 256 -> byte_cases b = true.
Proof. apply all_bytes. vm_compute. reflexivity. Qed.
Lemma show_byte_cases b : b < 256 ->
  (exists c, show_byte b = String c EmptyString /\ Ascii.eqb c backslash = false /\ Ascii.eqb c dot = false /\ N_of_ascii c = b) \/
  (exists d, show_byte b = String backslash (String d EmptyString) /\ isDigit d = false /\ N_of_ascii d = b) \/
  (exists d1 d2 d3, show_byte b = String backslash (String d1 (String d2 (String d3 EmptyString))) /\ isDigit d1 = true /\ isDigit d2 = true /\ isDigit d3 = true /\
     (digit_val d1 * 100 + digit_val d2 * 10 + digit_val d3) mod 256 = b /\
     Ascii.eqb d2 backslash = false /\ Ascii.eqb d2 dot = false /\ Ascii.eqb d3 backslash = false /\ Ascii.eqb d3 dot = false).
Proof.
  intros B. apply byte_cases_ok in B. unfold byte_cases in B. destruct (show_byte b) as [|c [|d1 [|d2 [|d3 [|? ?]]]]]; try discriminate B.
  - left. exists c. repeat (apply andb_prop in B; destruct B as [B ?]). repeat match goal with H : negb _ = true |- _ => apply negb_true_iff in H end.
    split; [reflexivity|]. split; [assumption|]. split; [assumption|]. apply N.eqb_eq. assumption.
  - right. left. repeat (apply andb_prop in B; destruct B as [B ?]). repeat match goal with H : negb _ = true |- _ => apply negb_true_iff in H end.
    apply Ascii.eqb_eq in B. subst c. exists d1. split; [reflexivity|]. split; [assumption|]. apply N.eqb_eq. assumption.
  - right. right. repeat (apply andb_prop in B; destruct B as [B ?]). repeat match goal with H : negb _ = true |- _ => apply negb_true_iff in H end.
    apply Ascii.eqb_eq in B. subst c. exists d1, d2, d3. repeat match goal with H : N.eqb _ _ = true |- _ => apply N.eqb_eq in H end. auto 12.
Qed.

Lemma labels_from_byte b cur r : b < 256 -> labels_from cur (show_byte b ++ r) = labels_from (cur ++ [b]) r.
Proof.
  intros B. destruct (show_byte_cases b B) as [(c & -> & E1 & E2 & V)|[(d & -> & E & V)|(d1 & d2 & d3 & -> & E1 & E2 & E3 & V & _)]]; cbn [append labels_from].
  - rewrite E1, E2, V. reflexivity.
  - rewrite Ascii.eqb_refl. cbn [labels_from]. destruct r as [|x [|y r]]; rewrite ?E, ?V; cbn [andb]; reflexivity.
  - rewrite Ascii.eqb_refl. rewrite E1, E2, E3, V. reflexivity.
Qed.
Lemma labels_from_label l : Forall (fun b => b < 256) l -> forall cur r, labels_from cur (show_label l ++ r) = labels_from (cur ++ l) r.
Proof.
  induction 1 as [|b l B _ IH]; intros cur r; [rewrite app_nil_r; reflexivity|]. cbn [show_label]. rewrite string_app_assoc, labels_from_byte by exact B.
  rewrite IH, <- app_assoc. reflexivity.
Qed.
Lemma labels_from_dot cur r : labels_from cur (String dot r) = cur :: labels_from [] r.
Proof. reflexivity. Qed.
Lemma labels_from_show n : name_ok n -> labels_from [] (show_labels n) = n.
Proof.
  induction 1 as [|l n [_ L] _ IH]; [reflexivity|]. cbn [show_labels]. rewrite labels_from_label by exact L. rewrite labels_from_dot. cbn [app]. rewrite IH. reflexivity.
Qed.

Lemma fq_byte b last r : b < 256 -> fq last (show_byte b ++ r) = fq false r.
Proof.
  intros B. destruct (show_byte_cases b B) as [(c & -> & E1 & E2 & _)|[(d & -> & _ & _)|(d1 & d2 & d3 & -> & E1 & E2 & E3 & _ & F1 & F2 & F3 & F4)]]; cbn [append fq].
  - rewrite E1, E2. reflexivity.
  - rewrite Ascii.eqb_refl. reflexivity.
  - rewrite Ascii.eqb_refl. rewrite ?F1, ?F2, ?F3, ?F4. reflexivity.
Qed.
Lemma fq_label l : Forall (fun b => b < 256) l -> forall last r, fq last (show_label l ++ String dot r) = fq true r.
Proof.
  induction 1 as [|b l B _ IH]; intros last r; [reflexivity|]. cbn [show_label]. rewrite string_app_assoc, fq_byte by exact B. apply IH.
Qed.
Lemma fq_labels n : name_ok n -> fq true (show_labels n) = true.
Proof. induction 1 as [|l n [_ L] _ IH]; [reflexivity|]. cbn [show_labels]. rewrite fq_label by exact L. exact IH. Qed.
Lemma show_fqdn n : name_ok n -> isFqdn (show n) = true.
Proof. intros H. unfold show, isFqdn. destruct n as [|l n]; [reflexivity|]. cbn [show_labels]. inversion H as [|? ? [_ L] H']; subst. rewrite fq_label by exact L. apply fq_labels, H'. Qed.

Lemma split_byte b cur r : b < 256 -> split_esc cur (show_byte b ++ r) = split_esc (cur ++ show_byte b) r.
Proof.
  intros B. destruct (show_byte_cases b B) as [(c & -> & E1 & E2 & _)|[(d & -> & _ & _)|(d1 & d2 & d3 & -> & E1 & E2 & E3 & _ & F1 & F2 & F3 & F4)]]; cbn [append split_esc].
  - rewrite E1, E2. reflexivity.
  - rewrite Ascii.eqb_refl. reflexivity.
  - rewrite Ascii.eqb_refl. rewrite ?F1, ?F2, ?F3, ?F4. rewrite !string_app_assoc. reflexivity.
Qed.
Lemma split_label l : Forall (fun b => b < 256) l -> forall cur r, split_esc cur (show_label l ++ r) = split_esc (cur ++ show_label l) r.
Proof.
  induction 1 as [|b l B _ IH]; intros cur r; [cbn [show_label append]; rewrite string_app_nil_r; reflexivity|]. cbn [show_label]. rewrite string_app_assoc, split_byte by exact B.
  rewrite IH, string_app_assoc. reflexivity.
Qed.
Lemma split_labels n : name_ok n -> split_esc EmptyString (show_labels n) = map show_label n ++ [EmptyString].
Proof.
  induction 1 as [|l n [_ L] _ IH]; [reflexivity|]. cbn [show_labels map app]. rewrite split_label by exact L. cbn [split_esc append]. 
  change (Ascii.eqb dot backslash) with false. change (Ascii.eqb dot dot) with true. cbn iota. rewrite IH. reflexivity.
Qed.
Lemma show_byte_dot b r : b < 256 -> (show_byte b ++ r)%string <> String dot EmptyString.
Proof.
  intros B. destruct (show_byte_cases b B) as [(c & -> & _ & E2 & _)|[(d & -> & _ & _)|(d1 & d2 & d3 & -> & _)]]; cbn [append]; intros E; try discriminate E.
  injection E as -> _. discriminate E2.
Qed.
Lemma show_root n : name_ok n -> (show n =? ".")%string = match n with [] => true | _ => false end.
Proof.
  intros H. destruct n as [|l n]; [reflexivity|]. apply String.eqb_neq. unfold show. cbn [show_labels]. inversion H as [|? ? [NE L] H']; subst. destruct l as [|b l]; [contradiction|].
  inversion L; subst. cbn [show_label]. rewrite string_app_assoc. apply show_byte_dot. assumption.
Qed.
Lemma splitDomainName_show n : name_ok n -> splitDomainName (show n) = map show_label n.
Proof.
  intros H. unfold splitDomainName. rewrite show_root by exact H. destruct n as [|l n]; [reflexivity|]. unfold show. rewrite split_labels by exact H. apply removelast_last.
Qed.

Lemma lc_lt b : b < 256 -> lc b < 256.
Proof. unfold lc. intros H. destruct ((65 <=? b) && (b <=? 90)) eqn:E; lia. Qed.
Lemma lc_idem b : lc (lc b) = lc b.
Proof. unfold lc. destruct ((65 <=? b) && (b <=? 90)) eqn:E; [|rewrite E; reflexivity]. replace ((65 <=? b + 32) && (b + 32 <=? 90)) with false by lia. reflexivity. Qed.
Lemma lname_ok n : name_ok n -> name_ok (lname n).
Proof.
  intros H. unfold name_ok, lname. apply Forall_map. apply (Forall_impl _ (P := label_ok)); [|exact H]. intros l [NE L]. split.
  - destruct l; [contradiction|discriminate].
  - apply Forall_map. apply (Forall_impl _ (P := fun b => b < 256)); [|exact L]. apply lc_lt.
Qed.
Lemma lname_idem n : lname (lname n) = lname n.
Proof. unfold lname. rewrite map_map. apply map_ext. intros l. rewrite map_map. apply map_ext. apply lc_idem. Qed.
Lemma canonicalName_show n : name_ok n -> canonicalName (show n) = show (lname n).
Proof. intros H. unfold canonicalName, fqdn. rewrite show_fqdn by exact H. apply show_lower, H. Qed.
Lemma canonicalLabels_show n : name_ok n -> canonicalLabels (show n) = lname n.
Proof.
  intros H. unfold canonicalLabels. rewrite canonicalName_show by exact H. cbv zeta. rewrite show_root by (apply lname_ok, H).
  destruct n as [|l n]; [reflexivity|]. cbn [lname map]. unfold show. apply (labels_from_show (lname (l :: n))). apply lname_ok, H.
Qed.

(** Names are shown differently. *)
Lemma show_byte_inj a b r s : a < 256 -> b < 256 -> (show_byte a ++ r = show_byte b ++ s)%string -> a = b.
Proof.
  intros A B E. assert (X : hd 0 (hd [] (labels_from [] (show_byte a ++ String dot r))) = a) by (rewrite labels_from_byte by exact A; reflexivity).
  destruct (show_byte_cases a A) as [(c & Ea & E1 & E2 & Va)|[(d & Ea & Da & Va)|(d1 & d2 & d3 & Ea & F1 & F2 & F3 & Va & _)]]; rewrite Ea in E;
  destruct (show_byte_cases b B) as [(c' & Eb & E1' & E2' & Vb)|[(d' & Eb & Db & Vb)|(d1' & d2' & d3' & Eb & F1' & F2' & F3' & Vb & _)]]; rewrite Eb in E; cbn [append] in E.
  - injection E as -> _. congruence.
  - injection E as -> _. discriminate E1.
  - injection E as -> _. discriminate E1.
  - injection E as <- _. discriminate E1'.
  - injection E as -> _. congruence.
  - injection E as -> _. congruence.
  - injection E as <- _. discriminate E1'.
  - injection E as -> _. congruence.
  - injection E as -> -> -> _. congruence.
Qed.
Lemma show_label_inj a : forall b, Forall (fun x => x < 256) a -> Forall (fun x => x < 256) b -> show_label a = show_label b -> a = b.
Proof.
  induction a as [|x a IH]; intros [|y b] A B E; [reflexivity| | |].
  - exfalso. inversion B; subst. cbn [show_label] in E. destruct (show_byte_cases y) as [(c & R & _)|[(d & R & _)|(d1 & d2 & d3 & R & _)]]; [assumption| | |]; rewrite R in E; discriminate E.
  - exfalso. inversion A; subst. cbn [show_label] in E. destruct (show_byte_cases x) as [(c & R & _)|[(d & R & _)|(d1 & d2 & d3 & R & _)]]; [assumption| | |]; rewrite R in E; discriminate E.
  - inversion A; subst. inversion B; subst. cbn [show_label] in E. assert (x = y) as <- by (apply (show_byte_inj x y (show_label a) (show_label b)); assumption).
    apply string_app_inj_l in E. f_equal. apply IH; assumption.
Qed.
Lemma show_inj a b : name_ok a -> name_ok b -> show a = show b -> a = b.
Proof.
  intros A B E. assert (X : map show_label a = map show_label b) by (rewrite <- !splitDomainName_show, E by assumption; reflexivity).
  clear E. revert b B X. induction A as [|l n [_ L] _ IH]; intros [|m b] B X; try discriminate X; [reflexivity|]. inversion B as [|? ? [_ M] B']; subst.
  cbn [map] in X. assert (X1 : show_label l = show_label m) by congruence. assert (X2 : map show_label n = map show_label b) by congruence.
  f_equal; [apply show_label_inj; assumption|apply IH; assumption].
Qed.

(** ** Common labels *)
Fixpoint agree (a b : name) : nat :=
  match a, b with x :: a', y :: b' => if list_eq_dec N.eq_dec x y then S (agree a' b') else O | _, _ => O end.
Lemma common_agree a : forall b, name_ok a -> name_ok b -> common (map show_label a) (map show_label b) = agree (map (map lc) a) (map (map lc) b).
Proof.
  induction a as [|x a IH]; intros [|y b] A B; try reflexivity. inversion A as [|? ? [_ X] A']; subst. inversion B as [|? ? [_ Y] B']; subst. cbn [map common agree].
  unfold equal_fold. rewrite !show_label_lower by assumption. destruct (String.eqb_spec (show_label (map lc x)) (show_label (map lc y))) as [E|E].
  - apply show_label_inj in E.
    + rewrite E. destruct (list_eq_dec N.eq_dec (map lc y) (map lc y)) as [_|N]; [|contradiction]. f_equal. apply IH; assumption.
    + apply Forall_map. apply (Forall_impl _ (P := fun b => b < 256)); [apply lc_lt|exact X].
    + apply Forall_map. apply (Forall_impl _ (P := fun b => b < 256)); [apply lc_lt|exact Y].
  - destruct (list_eq_dec N.eq_dec (map lc x) (map lc y)) as [E'|_]; [exfalso; apply E; rewrite E'; reflexivity|reflexivity].
Qed.
Lemma compareDomainName_show a b : name_ok a -> name_ok b -> compareDomainName (show a) (show b) = agree (rev (lname a)) (rev (lname b)).
Proof.
  intros A B. unfold compareDomainName. rewrite !splitDomainName_show by assumption. rewrite <- !map_rev. rewrite common_agree by (apply Forall_rev; assumption).
  unfold lname. rewrite !map_rev. reflexivity.
Qed.
Lemma agree_prefix a b : agree a b = length a <-> exists c, b = a ++ c.
Proof.
  revert b. induction a as [|x a IH]; intros b; cbn [agree length].
  - split; [intros _; exists b; reflexivity|]. destruct b; reflexivity.
  - destruct b as [|y b]; [split; [discriminate|intros (c & E); discriminate E]|]. destruct (list_eq_dec N.eq_dec x y) as [->|E].
    + split; [intros H; injection H as H; apply IH in H; destruct H as (c & ->); exists c; reflexivity|]. intros (c & E). f_equal. apply IH. exists c. cbn [app] in E. congruence.
    + split; [discriminate|]. intros (c & F). cbn [app] in F. congruence.
Qed.
Lemma agree_le a : forall b, (agree a b <= length a /\ agree a b <= length b)%nat.
Proof. induction a as [|x a IH]; intros [|y b]; cbn [agree length]; try lia. destruct (list_eq_dec N.eq_dec x y); [specialize (IH b); lia|lia]. Qed.
Lemma agree_firstn a : forall b k, (k <= agree a b)%nat -> firstn k a = firstn k b.
Proof.
  induction a as [|x a IH]; intros [|y b] k H; cbn [agree] in H; try (assert (k = 0%nat) as -> by lia; reflexivity).
  destruct (list_eq_dec N.eq_dec x y) as [->|E]; [|assert (k = 0%nat) as -> by lia; reflexivity]. destruct k as [|k]; [reflexivity|]. cbn [firstn]. f_equal. apply IH. lia.
Qed.
Lemma agree_max a : forall b k, (k <= length a)%nat -> (k <= length b)%nat -> firstn k a = firstn k b -> (k <= agree a b)%nat.
Proof.
  induction a as [|x a IH]; intros [|y b] [|k] A B E; cbn [length] in *; try lia. cbn [firstn] in E. cbn [agree].
  destruct (list_eq_dec N.eq_dec x y) as [->|N]; [|congruence]. assert (k <= agree a b)%nat; [|lia]. apply IH; [lia|lia|congruence].
Qed.
Lemma isSubDomain_show p c : name_ok p -> name_ok c -> isSubDomain (show p) (show c) = true <-> below p c.
Proof.
  intros P C. unfold isSubDomain, countLabel. rewrite splitDomainName_show by exact P. rewrite map_length. rewrite compareDomainName_show by assumption.
  unfold bytes in *. rewrite Nat.eqb_eq. assert (LP : length p = length (rev (lname p))) by (rewrite rev_length; unfold lname; rewrite map_length; reflexivity). rewrite LP, agree_prefix. unfold below. split.
  - intros (x & E). exists (rev x). rewrite <- (rev_involutive (lname c)), E, rev_app_distr, rev_involutive. reflexivity.
  - intros (pre & E). exists (rev pre). rewrite E, rev_app_distr. reflexivity.
Qed.

Lemma join_show l n : name_ok (l :: n) -> (joinLabels (map show_label (l :: n)) ++ ".")%string = show_labels (l :: n).
Proof.
  revert l. induction n as [|m n IH]; intros l H.
  - cbn [map joinLabels join show_labels]. reflexivity.
  - inversion H as [|? ? _ H']; subst. change (map show_label (l :: m :: n)) with (show_label l :: show_label m :: map show_label n). unfold joinLabels.
    rewrite join_cons2. change (show_label m :: map show_label n) with (map show_label (m :: n)). rewrite string_app_assoc. cbn [append].
    fold (joinLabels (map show_label (m :: n))). rewrite (IH m H'). reflexivity.
Qed.
(** ** The last labels *)
Lemma fq_join l : Forall (fun b => b < 256) l -> l <> [] -> forall last, fq last (show_label l) = false.
Proof.
  intros L NE last. destruct (exists_last NE) as (l' & b & ->). apply Forall_app in L. destruct L as [L B]. inversion B; subst.
  assert (G : forall last, fq last (show_label (l' ++ [b])) = fq (match l' with [] => last | _ => false end) (show_byte b)).
  { clear NE. induction L as [|x l' X _ IH]; intros la; [cbn [app show_label]; rewrite string_app_nil_r; reflexivity|]. cbn [app show_label]. rewrite fq_byte by exact X. rewrite IH. destruct l'; reflexivity. }
  rewrite G. rewrite <- (string_app_nil_r (show_byte b)). rewrite fq_byte by assumption. reflexivity.
Qed.
Lemma fq_join_labels n : forall l last, name_ok (l :: n) -> fq last (joinLabels (map show_label (l :: n))) = false.
Proof.
  induction n as [|m n IH]; intros l last H; inversion H as [|? ? [NE L] H']; subst.
  - cbn [map joinLabels join]. apply fq_join; assumption.
  - change (map show_label (l :: m :: n)) with (show_label l :: show_label m :: map show_label n). unfold joinLabels. rewrite join_cons2. rewrite fq_label by exact L. apply (IH m true), H'.
Qed.
Lemma lastNLabels_show n k : name_ok n -> lname n = n -> lastNLabels (show n) k = show (skipn (length n - k) n).
Proof.
  intros H LN. unfold lastNLabels. destruct (Nat.eqb_spec k 0) as [->|K]; [rewrite Nat.sub_0_r, skipn_all; reflexivity|]. cbv zeta.
  rewrite splitDomainName_show by exact H. rewrite map_length. destruct (Nat.leb_spec (length n) k) as [L|L].
  - rewrite canonicalName_show, LN by exact H. replace (length n - k)%nat with 0%nat by lia. reflexivity.
  - rewrite skipn_map. assert (S : name_ok (skipn (length n - k) n)) by (rewrite <- (firstn_skipn (length n - k) n) in H; apply Forall_app in H; apply H).
    assert (LS : length (skipn (length n - k) n) = k) by (rewrite skipn_length; lia).
    destruct (skipn (length n - k) n) as [|l m]; [cbn [length] in LS; lia|]. unfold fqdn, isFqdn. rewrite fq_join_labels by exact S. apply join_show, S.
Qed.

(** ** The comparison as an order *)
Lemma cmp_refl a : canonicalNameCmp a a = Eq.
Proof. apply labels_compare_eq. reflexivity. Qed.
Lemma cmp_sym a b : canonicalNameCmp b a = CompOpp (canonicalNameCmp a b).
Proof. apply labels_compare_sym. Qed.
Lemma cmp_lt_trans a b c : canonicalNameCmp a b = Lt -> canonicalNameCmp b c = Lt -> canonicalNameCmp a c = Lt.
Proof. unfold canonicalNameCmp. rewrite !labels_compare_lt. apply labels_lt_trans. Qed.
Lemma cmp_eq a b c : canonicalNameCmp a b = Eq -> canonicalNameCmp a c = canonicalNameCmp b c /\ canonicalNameCmp c a = canonicalNameCmp c b.
Proof. unfold canonicalNameCmp. rewrite labels_compare_eq. intros ->. split; reflexivity. Qed.
Lemma fq_lower s : forall last, fq last (lower s) = fq last s.
Proof.
  assert (B : forall c, Ascii.eqb (lower_ascii c) backslash = Ascii.eqb c backslash) by (intros [[] [] [] [] [] [] [] []]; reflexivity).
  assert (D : forall c, Ascii.eqb (lower_ascii c) dot = Ascii.eqb c dot) by (intros [[] [] [] [] [] [] [] []]; reflexivity).
  assert (G : forall k s, (String.length s <= k)%nat -> forall last, fq last (lower s) = fq last s).
  { clear s. induction k as [|k IH]; intros s L last; (destruct s as [|c s]; [reflexivity|]); [cbn [String.length] in L; lia|]. rewrite lower_cons. cbn [fq]. rewrite B, D.
    destruct (Ascii.eqb c backslash); [|apply IH; cbn [String.length] in L; lia]. destruct s as [|d s]; [reflexivity|]. rewrite lower_cons. apply IH. cbn [String.length] in L. lia. }
  intros last. apply (G (String.length s)). lia.
Qed.
Lemma canonicalName_lower s : canonicalName (lower s) = canonicalName s.
Proof. unfold canonicalName, fqdn, isFqdn. rewrite fq_lower. destruct (fq false s); [apply lower_idem|rewrite !lower_app, lower_idem; reflexivity]. Qed.
Lemma cmp_case a : canonicalNameCmp a (lower a) = Eq.
Proof. unfold canonicalNameCmp, canonicalLabels. rewrite canonicalName_lower. apply labels_compare_eq. reflexivity. Qed.

Lemma show_cmp_lt a b : name_ok a -> name_ok b -> canonicalNameCmp (show a) (show b) = Lt <-> name_lt a b.
Proof. intros A B. unfold canonicalNameCmp. rewrite !canonicalLabels_show by assumption. apply labels_compare_lt. Qed.
Lemma show_cmp_eq a b : name_ok a -> name_ok b -> canonicalNameCmp (show a) (show b) = Eq <-> same_name a b.
Proof.
  intros A B. unfold canonicalNameCmp. rewrite !canonicalLabels_show by assumption. rewrite labels_compare_eq. unfold same_name. split; [|intros ->; reflexivity].
  intros E. rewrite <- (rev_involutive (lname a)), E. apply rev_involutive.
Qed.
Lemma show_cmp_total a b : name_ok a -> name_ok b ->
  (canonicalNameCmp (show a) (show b) = Lt <-> name_lt a b) /\ (canonicalNameCmp (show a) (show b) = Eq <-> same_name a b) /\
  (canonicalNameCmp (show a) (show b) = Gt <-> name_lt b a).
Proof.
  intros A B. split; [apply show_cmp_lt; assumption|]. split; [apply show_cmp_eq; assumption|]. rewrite <- show_cmp_lt by assumption. rewrite (cmp_sym (show a) (show b)).
  destruct (canonicalNameCmp (show a) (show b)); cbn [CompOpp]; split; congruence.
Qed.
Lemma below_lt n a : below n a -> same_name n a \/ name_lt n a.
Proof.
  intros (pre & E). destruct pre as [|l pre]; [left; symmetry; exact E|right]. unfold name_lt. rewrite E, rev_app_distr. rewrite <- (app_nil_r (rev (lname n))) at 1.
  apply labels_lt_app. destruct (rev (l :: pre)) as [|x r] eqn:R; [|constructor]. apply (f_equal (@length _)) in R. rewrite rev_length in R. discriminate R.
Qed.
Lemma rev_below n a : below n a <-> exists r, rev (lname a) = rev (lname n) ++ r.
Proof.
  unfold below. split.
  - intros (pre & E). exists (rev pre). rewrite E, rev_app_distr. reflexivity.
  - intros (r & E). exists (rev r). rewrite <- (rev_involutive (lname a)), E, rev_app_distr, rev_involutive. reflexivity.
Qed.
Lemma below_between n a b c : below n a -> below n c -> (same_name a b \/ name_lt a b) -> (same_name b c \/ name_lt b c) -> below n b.
Proof.
  rewrite !rev_below. intros (ra & Ea) (rc & Ec) Hab Hbc. destruct Hab as [E|Lab]; [exists ra; unfold same_name in E; rewrite <- E; exact Ea|].
  destruct Hbc as [E|Lbc]; [exists rc; unfold same_name in E; rewrite E; exact Ec|]. unfold name_lt in *. rewrite Ea in Lab. rewrite Ec in Lbc.
  apply (labels_lt_prefix _ _ _ _ Lab Lbc).
Qed.
Lemma parent_first n a : name_ok n -> name_ok a -> below n a -> canonicalNameCmp (show n) (show a) <> Gt.
Proof.
  intros N A H. apply below_lt in H. destruct H as [H|H]; [apply show_cmp_eq in H|apply show_cmp_lt in H]; congruence.
Qed.
Lemma cmp_le a b : name_ok a -> name_ok b -> canonicalNameCmp (show a) (show b) <> Gt -> same_name a b \/ name_lt a b.
Proof.
  intros A B H. destruct (canonicalNameCmp (show a) (show b)) eqn:E; [left; apply show_cmp_eq; assumption|right; apply show_cmp_lt; assumption|congruence].
Qed.
Lemma subtree_contiguous n a b c : name_ok n -> name_ok a -> name_ok b -> name_ok c -> below n a -> below n c ->
  canonicalNameCmp (show a) (show b) <> Gt -> canonicalNameCmp (show b) (show c) <> Gt -> below n b.
Proof. intros N A B C Ha Hc H1 H2. apply (below_between n a b c Ha Hc); apply cmp_le; assumption. Qed.
Lemma escaped_upper : canonicalNameCmp "\065." "a." = Lt /\ show [[97]] = "a."%string /\ show [[65]] = "A."%string /\ labels_from [] "\065." = [[65]].
Proof. vm_compute. repeat split. Qed.
