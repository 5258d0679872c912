(** Lemmas about the string functions of [Base]. *)
From Verif Require Export Base.

Lemma split_not_nil sep s : split sep s <> [].
Proof. destruct s as [|c s]; simpl; [discriminate|].
  destruct (Ascii.eqb c sep); [discriminate|]. destruct (split sep s); discriminate. Qed.

Lemma join_split sep s : join sep (split sep s) = s.
Proof.
  induction s as [|c s IH]; simpl; [reflexivity|].
  destruct (Ascii.eqb c sep) eqn:E.
  - apply Ascii.eqb_eq in E; subst c.
    destruct (split sep s) as [|h t] eqn:E2; [destruct (split_not_nil _ _ E2)|].
    rewrite <- IH. reflexivity.
  - destruct (split sep s) as [|h t] eqn:E2; [destruct (split_not_nil _ _ E2)|].
    rewrite <- IH. destruct t; reflexivity.
Qed.

Lemma split_no_sep sep s : Forall (fun p => contains sep p = false) (split sep s).
Proof.
  induction s as [|c s IH]; simpl; [repeat constructor|].
  destruct (Ascii.eqb c sep) eqn:E.
  - constructor; [reflexivity|exact IH].
  - destruct (split sep s) as [|h t] eqn:E2; [destruct (split_not_nil _ _ E2)|].
    inversion IH; subst. constructor; [simpl; rewrite E; assumption|assumption].
Qed.

Lemma split_app_sep sep p s :
  contains sep p = false ->
  split sep (p ++ String sep s)%string = p :: split sep s.
Proof.
  induction p as [|c p IH]; simpl; intros H.
  - rewrite Ascii.eqb_refl; reflexivity.
  - apply orb_false_iff in H; destruct H as [H1 H2].
    rewrite H1, IH by assumption. reflexivity.
Qed.

Lemma split_single sep p : contains sep p = false -> split sep p = [p].
Proof.
  induction p as [|c p IH]; simpl; intros H; [reflexivity|].
  apply orb_false_iff in H; destruct H as [H1 H2].
  rewrite H1, IH by assumption. reflexivity.
Qed.

Lemma split_join sep l :
  l <> [] -> Forall (fun p => contains sep p = false) l -> split sep (join sep l) = l.
Proof.
  induction l as [|x l IH]; intros Hn HF; [congruence|].
  inversion HF; subst. destruct l as [|y l].
  - simpl. apply split_single; assumption.
  - change (join sep (x :: y :: l)) with (x ++ String sep (join sep (y :: l)))%string.
    rewrite split_app_sep by assumption. f_equal. apply IH; [discriminate|assumption].
Qed.

Lemma lower_ascii_idem c : lower_ascii (lower_ascii c) = lower_ascii c.
Proof. destruct c as [[] [] [] [] [] [] [] []]; vm_compute; reflexivity. Qed.

Lemma lower_idem s : lower (lower s) = lower s.
Proof. induction s as [|c s IH]; simpl; [reflexivity|]. rewrite lower_ascii_idem, IH; reflexivity. Qed.

Lemma lower_app a b : lower (a ++ b) = (lower a ++ lower b)%string.
Proof. induction a as [|c a IH]; simpl; [reflexivity|rewrite IH; reflexivity]. Qed.

Lemma string_app_nil_r s : (s ++ "")%string = s.
Proof. induction s as [|c s IH]; simpl; [reflexivity|rewrite IH; reflexivity]. Qed.

Lemma string_app_assoc (a b c : string) : ((a ++ b) ++ c)%string = (a ++ (b ++ c))%string.
Proof. induction a as [|x a IH]; simpl; [reflexivity|rewrite IH; reflexivity]. Qed.

Lemma string_app_inj_l (a b c : string) : (a ++ b)%string = (a ++ c)%string -> b = c.
Proof. induction a as [|x a IH]; simpl; intros H; [exact H|]. inversion H; auto. Qed.

Lemma equal_fold_true a b : equal_fold a b = true <-> lower a = lower b.
Proof. unfold equal_fold. apply String.eqb_eq. Qed.

Lemma join_cons2 sep x y l :
  join sep (x :: y :: l) = (x ++ String sep (join sep (y :: l)))%string.
Proof. reflexivity. Qed.

Lemma join_inj sep l1 l2 :
  l1 <> [] -> l2 <> [] ->
  Forall (fun p => contains sep p = false) l1 ->
  Forall (fun p => contains sep p = false) l2 ->
  join sep l1 = join sep l2 -> l1 = l2.
Proof.
  intros N1 N2 F1 F2 E.
  rewrite <- (split_join sep l1), <- (split_join sep l2) by assumption.
  rewrite E; reflexivity.
Qed.
