From Verif Require Import Base Base_proofs Bytes Text_spec Text_proofs.
From Coq Require Import ZifyBool ZifyNat ZifyN.
Local Open Scope N_scope.

Lemma ascii_code a b : N_of_ascii a = N_of_ascii b -> a = b.
Proof. intros E. rewrite <- (ascii_N_embedding a), <- (ascii_N_embedding b), E. reflexivity. Qed.
Lemma code_lt c : N_of_ascii c < 256. Proof. apply N_ascii_bounded. Qed.
Lemma lower_small c d : lower_ascii c = d <-> small (N_of_ascii c) (N_of_ascii d).
Proof.
  unfold lower_ascii, small. cbv zeta. pose proof (code_lt c) as L. destruct (N.leb 65 (N_of_ascii c) && N.leb (N_of_ascii c) 90) eqn:E.
  - split; [intros <-; left|intros [[_ X]|[X _]]; [|lia]].
    + rewrite !N_ascii_embedding by lia. lia.
    + apply ascii_code. rewrite !N_ascii_embedding by lia. lia.
  - split; [intros <-; right; lia|]. intros [[X _]|[_ X]]; [lia|]. apply ascii_code. lia.
Qed.
Lemma upper_large c d : upper_ascii c = d <-> large (N_of_ascii c) (N_of_ascii d).
Proof.
  unfold upper_ascii, large. cbv zeta. pose proof (code_lt c) as L. destruct (N.leb 97 (N_of_ascii c) && N.leb (N_of_ascii c) 122) eqn:E.
  - split; [intros <-; left|intros [[_ X]|[X _]]; [|lia]].
    + rewrite !N_ascii_embedding by lia. lia.
    + apply ascii_code. rewrite !N_ascii_embedding by lia. lia.
  - split; [intros <-; right; lia|]. intros [[X _]|[_ X]]; [lia|]. apply ascii_code. lia.
Qed.
Lemma lower_iff s : forall t, lower s = t <-> chars2 small s t.
Proof.
  induction s as [|c s IH]; intros [|d t]; cbn [lower chars2]; [tauto|split; [discriminate|tauto]|split; [discriminate|tauto]|]. rewrite <- IH, <- lower_small. split; [intros [= -> ->]; auto|intros [-> ->]; reflexivity].
Qed.
Lemma upper_iff s : forall t, upper s = t <-> chars2 large s t.
Proof.
  induction s as [|c s IH]; intros [|d t]; cbn [upper chars2]; [tauto|split; [discriminate|tauto]|split; [discriminate|tauto]|]. rewrite <- IH, <- upper_large. split; [intros [= -> ->]; auto|intros [-> ->]; reflexivity].
Qed.
Lemma lower_alike c d : lower_ascii c = lower_ascii d <-> alike (N_of_ascii c) (N_of_ascii d).
Proof.
  pose proof (proj1 (lower_small c _) eq_refl) as C. pose proof (proj1 (lower_small d _) eq_refl) as D. unfold small, alike in *. split.
  - intros E. rewrite E in C. lia.
  - intros A. apply ascii_code. lia.
Qed.
Lemma fold_iff a : forall b, equal_fold a b = true <-> chars2 alike a b.
Proof.
  setoid_rewrite equal_fold_true. induction a as [|c a IH]; intros [|d b]; cbn [lower chars2]; [tauto|split; [discriminate|tauto]|split; [discriminate|tauto]|].
  rewrite <- IH, <- lower_alike. split; [intros [= E1 E2]; auto|intros [-> ->]; reflexivity].
Qed.
Lemma contains_iff c s : contains c s = true <-> occurs c s.
Proof.
  unfold occurs. induction s as [|d s IH]; cbn [contains]; [split; [discriminate|intros ([|] & b & [=])]|]. rewrite orb_true_iff, IH, Ascii.eqb_eq. split.
  - intros [->|(a & b & ->)]; [exists EmptyString, s; reflexivity|exists (String d a), b; reflexivity].
  - intros ([|e a] & b & E); injection E as -> ->; [auto|right; eauto].
Qed.
Lemma contains_not c s : contains c s = false <-> ~ occurs c s.
Proof. rewrite <- contains_iff, not_true_iff_false. tauto. Qed.
Lemma split_parts c s l : split c s = l <-> parts c s l.
Proof.
  split.
  - intros <-. induction s as [|d s IH]; cbn [split]; [apply P_one; intros ([|] & b & [=])|]. destruct (Ascii.eqb_spec d c) as [->|N].
    + apply (P_more c EmptyString); [intros ([|] & b & [=])|exact IH].
    + revert IH. generalize (split c s) as l. intros l H. assert (D : forall p, ~ occurs c p -> ~ occurs c (String d p)).
      { intros p O. apply contains_not in O. apply contains_not. cbn [contains]. rewrite O. destruct (Ascii.eqb_spec d c); [contradiction|reflexivity]. }
      destruct H as [p O|p s' l O H]; [apply P_one, D, O|apply (P_more c (String d p)); [apply D, O|exact H]].
  - induction 1 as [p O|p s l O H IH].
    + apply split_single, contains_not, O.
    + apply contains_not in O. rewrite <- IH. clear - O. induction p as [|d p IH]; cbn [append split contains] in *; [rewrite Ascii.eqb_refl; reflexivity|]. apply orb_false_iff in O. destruct O as [-> O]. rewrite (IH O). reflexivity.
Qed.
Lemma suffix_iff c s t : trim_suffix c s = t <-> s = (t ++ String c EmptyString)%string \/ (s = t /\ forall u, s <> (u ++ String c EmptyString)%string).
Proof.
  split.
  - intros <-. induction s as [|d s IH]; cbn [trim_suffix]; [right; split; [reflexivity|intros [|] [=]]|]. destruct s as [|e s].
    + destruct (Ascii.eqb_spec d c) as [->|N]; [left; reflexivity|]. right. split; [reflexivity|]. intros [|x u] [= E]; [contradiction|destruct u; discriminate].
    + destruct IH as [IH|[IH H]]; [left; cbn [append]; f_equal; exact IH|]. right. split; [f_equal; exact IH|]. intros [|x u] [= E1 E2]. exact (H u E2).
  - intros [->|[<- H]].
    + induction t as [|d t IH]; cbn [append trim_suffix]; [rewrite Ascii.eqb_refl; reflexivity|]. rewrite IH. destruct t; reflexivity.
    + induction s as [|d s IH]; [reflexivity|]. cbn [trim_suffix]. destruct s as [|e s].
      * destruct (Ascii.eqb_spec d c) as [->|N]; [exfalso; exact (H EmptyString eq_refl)|reflexivity].
      * f_equal. apply IH. intros u E. apply (H (String d u)). rewrite E. reflexivity.
Qed.
Lemma prefix_iff p : forall s, has_prefix p s = true <-> exists r, s = (p ++ r)%string.
Proof.
  unfold has_prefix. induction p as [|c p IH]; intros s; [split; [intros _; exists s; reflexivity|destruct s; reflexivity]|]. destruct s as [|d s]; cbn [String.prefix append]; [split; [discriminate|intros (r & [=])]|].
  destruct (ascii_dec c d) as [->|N]; [|split; [discriminate|intros (r & [= E _]); congruence]]. rewrite IH. split; intros (r & E); exists r; [rewrite E; reflexivity|injection E as E; exact E].
Qed.
Lemma fqdn_iff s t : fqdn s = t <-> (s = t /\ exists u, s = (u ++ ".")%string) \/ (t = (s ++ ".")%string /\ forall u, s <> (u ++ ".")%string).
Proof.
  assert (X : ends_with_dot s = true <-> exists u, s = (u ++ ".")%string).
  { unfold ends_with_dot. split.
    - destruct (rev (list_ascii_of_string s)) as [|c l] eqn:E; [discriminate|]. intros H. apply Ascii.eqb_eq in H. subst c. exists (string_of_list_ascii (rev l)). apply (f_equal (@rev ascii)) in E. rewrite rev_involutive in E. cbn [rev] in E.
      rewrite <- (string_of_list_ascii_of_string s), E, str_app. reflexivity.
    - intros (u & ->). rewrite list_app, rev_app_distr. reflexivity. }
  unfold fqdn. destruct (ends_with_dot s) eqn:E.
  - pose proof (proj1 X eq_refl) as Y. split; [intros <-; auto|]. intros [[-> _]|[_ H]]; [reflexivity|]. destruct Y as (u & Y). destruct (H u Y).
  - assert (Y : ~ exists u, s = (u ++ ".")%string) by (intros Y; apply X in Y; discriminate Y). split; [intros <-; right; split; [reflexivity|intros u Z; apply Y; eauto]|]. intros [[_ Z]|[-> _]]; [contradiction|reflexivity].
Qed.
(** Fields *)
Lemma occurs_cons c d s : occurs c (String d s) <-> c = d \/ occurs c s.
Proof. rewrite <- !contains_iff. cbn [contains]. rewrite orb_true_iff, Ascii.eqb_eq. split; intros [|]; auto. Qed.
Lemma occurs_app c a b : occurs c (a ++ b) <-> occurs c a \/ occurs c b.
Proof. induction a as [|d a IH]; cbn [append]; [split; [auto|intros [(x & y & E)|]; [destruct x; discriminate|assumption]]|]. rewrite !occurs_cons, IH. tauto. Qed.
Lemma space_false c : is_space c = false <-> ~ white c.
Proof. rewrite <- white_iff, not_true_iff_false. tauto. Qed.
Lemma fields_gap g s : all_white g -> fields (g ++ s) = fields s.
Proof. unfold fields. induction g as [|c g IH]; [reflexivity|]. cbn [append fields_from all_white]. intros [W A]. rewrite (proj2 (white_iff c) W). exact (IH A). Qed.
Lemma fields_cur w : forall cur s, (forall c, occurs c w -> ~ white c) -> fields_from cur (w ++ s) = fields_from (cur ++ w) s.
Proof.
  induction w as [|c w IH]; intros cur s H; cbn [append fields_from]; [rewrite string_app_nil_r; reflexivity|]. rewrite (proj2 (space_false c) (H c (proj2 (occurs_cons c c w) (or_introl eq_refl)))).
  rewrite IH; [rewrite string_app_assoc; reflexivity|]. intros d O. apply H, occurs_cons. auto.
Qed.
Lemma fields_end w : w <> EmptyString -> fields_from w EmptyString = [w].
Proof. destruct w; [contradiction|reflexivity]. Qed.
Lemma fields_next w c s : w <> EmptyString -> white c -> fields_from w (String c s) = w :: fields s.
Proof. intros N W. cbn [fields_from]. rewrite (proj2 (white_iff c) W). destruct w; [contradiction|reflexivity]. Qed.
Lemma words_gap c s l : white c -> words s l -> words (String c s) l.
Proof. intros W H. inversion H as [g G|g w G Ww|g w d s' l' G Ww Wd R]; subst; [apply W_none; cbn; auto|apply (W_last (String c g)); cbn; auto|apply (W_more (String c g)); cbn; auto]. Qed.
Lemma words_of s : forall cur, (cur <> EmptyString -> word cur) -> words (cur ++ s) (fields_from cur s).
Proof.
  induction s as [|c s IH]; intros cur H; cbn [fields_from].
  - rewrite string_app_nil_r. destruct cur as [|d cur]; [apply W_none; exact I|]. apply (W_last EmptyString); [exact I|apply H; discriminate].
  - destruct (is_space c) eqn:S.
    + apply white_iff in S. destruct cur as [|d cur]; [cbn [append]; apply words_gap; [exact S|apply (IH EmptyString); intros X; destruct X; reflexivity]|].
      apply (W_more EmptyString (String d cur) c s); [exact I|apply H; discriminate|exact S|apply (IH EmptyString); intros X; destruct X; reflexivity].
    + apply space_false in S. replace (cur ++ String c s)%string with ((cur ++ String c EmptyString) ++ s)%string by (rewrite string_app_assoc; reflexivity). apply IH. intros _. split; [destruct cur; discriminate|].
      intros d O. apply occurs_app in O. destruct O as [O|O].
      * destruct cur as [|e cur]; [destruct O as ([|] & y & [=])|]. exact (proj2 (H ltac:(discriminate)) d O).
      * apply occurs_cons in O. destruct O as [->|([|] & y & [=])]. exact S.
Qed.
Lemma fields_iff s l : fields s = l <-> words s l.
Proof.
  split; [intros <-; apply (words_of s EmptyString); intros X; destruct X; reflexivity|]. induction 1 as [g G|g w G [N O]|g w c s l G [N O] W R IH].
  - rewrite <- (string_app_nil_r g), fields_gap by exact G. reflexivity.
  - rewrite fields_gap by exact G. unfold fields. rewrite <- (string_app_nil_r w) at 1. rewrite fields_cur by exact O. apply fields_end, N.
  - rewrite fields_gap by exact G. unfold fields. rewrite fields_cur by exact O. cbn [append]. rewrite fields_next by assumption. rewrite IH. reflexivity.
Qed.
