From Coq Require Import DecimalString DecimalNat DecimalN DecimalFacts.
From Verif Require Import Base Base_proofs Redis_model Text_spec.
From Verif Require Import Cidr_spec.
From Coq Require Import ZifyBool ZifyNat ZifyN.
Local Open Scope N_scope.

Lemma white_iff c : is_space c = true <-> white c.
Proof. unfold is_space, white. cbn [In]. set (n := N_of_ascii c). clearbody n. lia. Qed.
Notation str := string_of_list_ascii.
Lemma str_app a b : str (a ++ b) = (str a ++ str b)%string.
Proof. induction a as [|c a IH]; [reflexivity|]. cbn. rewrite IH. reflexivity. Qed.
Lemma trim_left_is l : exists a, l = a ++ trim_left l /\ Forall white a /\ forall c r, trim_left l = c :: r -> ~ white c.
Proof.
  induction l as [|c l (a & E & F & H)]; [exists []; repeat split; [constructor|discriminate]|]. cbn [trim_left]. destruct (is_space c) eqn:S.
  - exists (c :: a). split; [cbn; congruence|]. split; [constructor; [apply white_iff, S|exact F]|exact H].
  - exists []. split; [reflexivity|]. split; [constructor|]. intros d r [= -> _] W. apply white_iff in W. congruence.
Qed.
Lemma all_white_str a : Forall white a -> all_white (str a).
Proof. induction 1; cbn; auto. Qed.
Lemma trim_ok s : trimmed s (trim_space s).
Proof.
  unfold trim_space. destruct (trim_left_is (list_ascii_of_string s)) as (a & E & Fa & Ha). set (l := trim_left (list_ascii_of_string s)) in *. destruct (trim_left_is (rev l)) as (b & E2 & Fb & Hb). set (m := trim_left (rev l)) in *.
  assert (L : l = rev m ++ rev b) by (rewrite <- (rev_involutive l), E2, rev_app_distr; reflexivity). split; [|split].
  - exists (str a), (str (rev b)). split; [|split; apply all_white_str; [exact Fa|apply Forall_rev, Fb]]. rewrite <- !str_app, <- L, <- E. symmetry. apply string_of_list_ascii_of_string.
  - intros c u X. destruct (rev m) as [|d r] eqn:R; [discriminate X|]. injection X as -> _. apply (Ha c (r ++ rev b)). rewrite L. reflexivity.
  - intros c u X. apply (Hb c (rev (list_ascii_of_string u))). rewrite <- (rev_involutive m). assert (Y : rev m = list_ascii_of_string u ++ [c]); [|rewrite Y, rev_app_distr; reflexivity].
    rewrite <- (list_ascii_of_string_of_list_ascii (rev m)), X. clear. induction u as [|d u IH]; [reflexivity|]. cbn. rewrite IH. reflexivity.
Qed.
Lemma white_app a b : all_white (a ++ b) <-> all_white a /\ all_white b.
Proof. induction a as [|c a IH]; cbn; [tauto|]. rewrite IH. tauto. Qed.

Lemma from_acc u : forall p, decimal_from (Npos p) (NilEmpty.string_of_uint u) = Some (Npos (Pos.of_uint_acc u p)).
Proof. induction u as [|u IH|u IH|u IH|u IH|u IH|u IH|u IH|u IH|u IH|u IH]; intros p; cbn [NilEmpty.string_of_uint decimal_from Pos.of_uint_acc]; [reflexivity|..]; rewrite <- IH; match goal with |- context [N_of_ascii ?c] => let v := eval vm_compute in (N_of_ascii c) in change (N_of_ascii c) with v end; cbv zeta; cbn [N.leb N.compare Pos.compare Pos.compare_cont andb]; (match goal with |- decimal_from ?a _ = decimal_from ?b _ => replace a with b by lia end); reflexivity. Qed.
Lemma from_zero u : decimal_from 0 (NilEmpty.string_of_uint u) = Some (N.of_uint u).
Proof. unfold N.of_uint. induction u as [|u IH|u IH|u IH|u IH|u IH|u IH|u IH|u IH|u IH|u IH]; cbn [NilEmpty.string_of_uint decimal_from Pos.of_uint]; [reflexivity|exact IH|..]; rewrite <- from_acc; reflexivity. Qed.
Lemma itoa_shown n : shown n (itoa n).
Proof.
  assert (G : N.to_uint n <> Decimal.Nil). { intros E. pose proof (DecimalN.Unsigned.of_to n) as O. rewrite E in O. cbn in O. subst n. discriminate E. }
  assert (X : itoa n = NilEmpty.string_of_uint (N.to_uint n)) by (unfold itoa, NilZero.string_of_uint; destruct (N.to_uint n); [contradiction|reflexivity..]). rewrite X. split; [split|].
  - destruct (N.to_uint n); [contradiction|discriminate..].
  - rewrite from_zero, DecimalN.Unsigned.of_to. reflexivity.
  - intros u E. pose proof (DecimalN.Unsigned.to_of (N.to_uint n)) as T. rewrite DecimalN.Unsigned.of_to in T. unfold Decimal.unorm in T. destruct (Decimal.nzhead (N.to_uint n)) eqn:Z; rewrite T in E; cbn [NilEmpty.string_of_uint] in E; try discriminate E.
    + injection E as <-. reflexivity.
    + exfalso. exact (nzhead_nonzero _ _ Z).
Qed.
Lemma trim_left_unique a r : Forall white a -> (forall c x, r = c :: x -> ~ white c) -> trim_left (a ++ r) = r.
Proof.
  intros F H. induction F as [|c a W F IH]; cbn [app trim_left].
  - destruct r as [|c x]; [reflexivity|]. cbn. destruct (is_space c) eqn:S; [|reflexivity]. exfalso. apply (H c x eq_refl), white_iff, S.
  - rewrite (proj2 (white_iff c) W). exact IH.
Qed.
Lemma list_app a b : list_ascii_of_string (a ++ b) = list_ascii_of_string a ++ list_ascii_of_string b.
Proof. induction a as [|c a IH]; [reflexivity|]. cbn. rewrite IH. reflexivity. Qed.
Lemma all_white_list a : all_white a -> Forall white (list_ascii_of_string a).
Proof. induction a as [|c a IH]; cbn; [constructor|]. intros [W A]. constructor; auto. Qed.
Lemma trim_iff s t : trim_space s = t <-> trimmed s t.
Proof.
  split; [intros <-; apply trim_ok|]. intros ((a & b & -> & A & B) & H1 & H2). unfold trim_space. rewrite !list_app. apply all_white_list in A, B. set (A' := list_ascii_of_string a) in *. set (B' := list_ascii_of_string b) in *. clearbody A' B'.
  destruct t as [|c u].
  - cbn [list_ascii_of_string app]. rewrite <- (app_nil_r (A' ++ B')). rewrite trim_left_unique; [reflexivity|apply Forall_app; auto|discriminate].
  - rewrite trim_left_unique; [|exact A|cbn; intros d x [= <- _]; exact (H1 c u eq_refl)]. rewrite rev_app_distr, trim_left_unique; [rewrite rev_involutive; apply string_of_list_ascii_of_string|apply Forall_rev, B|].
    intros d x E. apply (H2 d (str (rev x))). rewrite <- (string_of_list_ascii_of_string (String c u)). rewrite <- (rev_involutive (list_ascii_of_string (String c u))), E. cbn [rev]. rewrite str_app. reflexivity.
Qed.
