(** Lemmas for C86. *)
From Verif Require Import Base Bytes Dns QLog_model QLog_spec.
From Coq Require Import Lia.
Local Open Scope Z_scope.

Section PROOFS.
Variable typeName : N -> string.
Variable level_of : nat -> Z.
Notation step := (lstep typeName level_of).
Notation run := (lrun typeName level_of).

Definition valid (m : memory) (x : slice) : Prop := s_len x = 0%nat \/ (s_arr x < length m)%nat /\ (s_len x <= length (nth (s_arr x) m []))%nat.
Definition shows (m : memory) (l : qlogger) (a : abs) : Prop :=
  l_dst l = a_dst a /\ l_id l = a_id a /\ l_q l = a_q a /\ l_ci l = a_ci a /\ read m (l_extra l) = a_args a /\ valid m (l_extra l).
Lemma read_more m x y : valid m x -> read (m ++ y) x = read m x.
Proof. intros [E|[A B]]; unfold read; [rewrite E; reflexivity|]. now rewrite app_nth1 by assumption. Qed.
Lemma valid_more m x y : valid m x -> valid (m ++ y) x.
Proof. intros [E|[A B]]; [left; exact E|right]. rewrite app_length, app_nth1 by assumption. split; [lia|exact B]. Qed.
Lemma shows_more m y l a : shows m l a -> shows (m ++ y) l a.
Proof. intros (A & B & C & D & E & F). repeat (split; [assumption|]). split; [rewrite read_more by exact F; exact E|exact (valid_more m _ y F)]. Qed.
Lemma read_len m x : valid m x -> length (read m x) = s_len x.
Proof. unfold read. rewrite firstn_length. intros [E|[A B]]; [rewrite E; reflexivity|lia]. Qed.

Lemma append_clip spare m x args : args <> [] -> append spare m (clip x) args =
  (m ++ [read m x ++ args ++ repeat (AOther 0) spare], Slice (length m) (s_len x + length args) (s_len x + length args + spare)).
Proof.
  intros N. unfold append, clip. cbn [s_len s_cap s_arr]. destruct (Nat.leb_spec (s_len x + length args) (s_len x)); [|reflexivity].
  destruct args; [congruence|]. cbn [length] in H. lia.
Qed.
Lemma with_shows spare m l a args m' l' : shows m l a -> with_args spare m l args = (m', l') ->
  (exists y, m' = m ++ y) /\ shows m' l' (Abs (a_dst a) (a_id a) (a_q a) (a_ci a) (a_args a ++ args)).
Proof.
  intros (A & B & C & D & E & F) W. unfold with_args in W. destruct args as [|x0 args].
  - injection W as <- <-. split; [exists []; symmetry; apply app_nil_r|]. rewrite app_nil_r. repeat (split; [assumption|]). exact F.
  - remember (x0 :: args) as l0 eqn:L0. assert (NE : l0 <> []) by (rewrite L0; discriminate). clear L0. rewrite append_clip in W by exact NE.
    injection W as <- <-. split; [eexists; reflexivity|]. repeat (split; [assumption|]). cbn [l_extra a_args]. split.
    + unfold read at 1. cbn [s_arr s_len]. rewrite app_nth2, Nat.sub_diag by lia. cbn [nth]. rewrite app_assoc.
      assert (H : (s_len (l_extra l) + length l0)%nat = length (read m (l_extra l) ++ l0)) by (rewrite app_length, read_len by exact F; reflexivity).
      rewrite H, firstn_app, Nat.sub_diag, firstn_all, firstn_O, app_nil_r, E. reflexivity.
    + right. cbn [s_arr s_len]. rewrite app_length, app_nth2, Nat.sub_diag by lia. cbn [nth length]. split; [lia|].
      rewrite !app_length, read_len by exact F. lia.
Qed.

Definition inv (s : lstate) (g : nat) (made : list abs) : Prop := global s = g /\ Forall2 (shows (mem s)) (loggers s) made.
Lemma Forall2_nth {A B} (R : A -> B -> Prop) l l' i y : Forall2 R l l' -> nth_error l' i = Some y -> exists x, nth_error l i = Some x /\ R x y.
Proof. intros H. revert i. induction H as [|a b l l' R1 H IH]; intros [|i] E; try discriminate; cbn in *; [injection E as <-; eauto|apply IH; exact E]. Qed.
Lemma Forall2_nth' {A B} (R : A -> B -> Prop) l l' i x : Forall2 R l l' -> nth_error l i = Some x -> exists y, nth_error l' i = Some y /\ R x y.
Proof. intros H. revert i. induction H as [|a b l l' R1 H IH]; intros [|i] E; try discriminate; cbn in *; [injection E as <-; eauto|apply IH; exact E]. Qed.
Lemma Forall2_more m y l l' : Forall2 (shows m) l l' -> Forall2 (shows (m ++ y)) l l'.
Proof. induction 1; constructor; auto using shows_more. Qed.
Lemma Forall2_snoc {A B} (R : A -> B -> Prop) l l' x y : Forall2 R l l' -> R x y -> Forall2 R (l ++ [x]) (l' ++ [y]).
Proof. intros H K. apply Forall2_app; [exact H|]. constructor; [exact K|constructor]. Qed.

Lemma inv_run : forall l s s' g made, run s l = Some s' -> inv s g made -> inv s' (fst (history g made l)) (snd (history g made l)).
Proof.
  induction l as [|e l IH]; intros s s' g made E V; cbn [lrun] in E.
  - injection E as <-. exact V.
  - destruct (step s e) as [s1|] eqn:F; [|discriminate]. destruct V as [G V]. destruct e as [id q ci|id q ci|i args spare|i level text args|d|p m]; cbn [lstep history] in *.
    + injection F as <-. apply (IH _ _ _ _ E). split; [exact G|]. cbn. apply Forall2_snoc; [exact V|]. rewrite <- G. repeat (split; [reflexivity|]). left. reflexivity.
    + injection F as <-. apply (IH _ _ _ _ E). split; [exact G|]. cbn. apply Forall2_snoc; [exact V|]. repeat (split; [reflexivity|]). left. reflexivity.
    + destruct (nth_error (loggers s) i) as [x|] eqn:X; [|discriminate]. destruct (Forall2_nth' _ _ _ _ _ V X) as (a & A & S). rewrite A.
      destruct (with_args spare (mem s) x args) as [m' x'] eqn:W. injection F as <-. destruct (with_shows _ _ _ _ _ _ _ S W) as [[y ->] S'].
      apply (IH _ _ _ _ E). split; [exact G|]. cbn. apply Forall2_snoc; [apply Forall2_more; exact V|exact S'].
    + destruct (nth_error (loggers s) i) as [x|]; [|discriminate]. injection F as <-. apply (IH _ _ _ _ E). destruct (log typeName level_of s x level text args); (split; [exact G|exact V]).
    + injection F as <-. apply (IH _ _ _ _ E). split; [reflexivity|exact V].
    + injection F as <-. apply (IH _ _ _ _ E). split; [exact G|exact V].
Qed.
Lemma inv_init d l s : run (linit d) l = Some s -> inv s (fst (history d [] l)) (snd (history d [] l)).
Proof. intros E. apply (inv_run l (linit d) s d [] E). split; [reflexivity|constructor]. Qed.

Lemma unless_if k x : unless_empty k x (if String.eqb x "" then [] else [(k, VStr x)]).
Proof. destruct (String.eqb_spec x ""); [left|right]; auto. Qed.
Lemma record_spec d l s g made i a level text args : run (linit d) l = Some s -> history d [] l = (g, made) -> nth_error made i = Some a ->
  let dst := match a_dst a with Some x => x | None => g end in
  exists s', step s (ELog i level text args) = Some s' /\
  if level <? level_of dst then s' = s
  else exists r, recorded typeName (messages s) a args r /\ s' = LState (mem s) (messages s) (global s) (loggers s) (out s ++ [Entry dst level text r]).
Proof.
  intros E H A dst. apply inv_init in E as [G V]. rewrite H in G, V. cbn [fst snd] in G, V. destruct (Forall2_nth _ _ _ _ _ V A) as (x & X & D & I & Q & C & R & _).
  cbn [lstep]. rewrite X. eexists. split; [reflexivity|]. unfold log. rewrite D, G. fold dst. destruct (level <? level_of dst); [reflexivity|].
  eexists. split; [|reflexivity]. rewrite I, Q, C, R. constructor; try apply unless_if.
  destruct (a_q a) as [p|]; [|constructor]. unfold qTypeName, qName. destruct (m_question (messages s p)) as [|y k] eqn:M; [apply named_empty; exact M|apply (named_some _ _ p y k); exact M].
Qed.
Lemma with_spec d l s g made i a args spare : run (linit d) l = Some s -> history d [] l = (g, made) -> nth_error made i = Some a -> exists s', step s (EWith i args spare) = Some s'.
Proof.
  intros E H A. apply inv_init in E as [G V]. rewrite H in V. destruct (Forall2_nth _ _ _ _ _ V A) as (x & X & _). cbn [lstep]. rewrite X.
  destruct (with_args spare (mem s) x args). eauto.
Qed.
Lemma readonly s e s' : step s e = Some s' -> (exists y, mem s' = mem s ++ y) /\ (exists y, loggers s' = loggers s ++ y) /\ exists y, out s' = out s ++ y.
Proof.
  assert (N : forall A (x : list A), exists y, x = x ++ y) by (intros A x; exists []; symmetry; apply app_nil_r).
  destruct e as [id q ci|id q ci|i args spare|i level text args|d|p m]; cbn [lstep]; intros E.
  - injection E as <-. cbn. split; [eauto|]. split; eauto.
  - injection E as <-. cbn. split; [eauto|]. split; eauto.
  - destruct (nth_error (loggers s) i) as [x|]; [|discriminate]. unfold with_args in E. destruct args as [|x0 args].
    + injection E as <-. cbn. split; [eauto|]. split; eauto.
    + rewrite append_clip in E by discriminate. injection E as <-. cbn. split; [eauto|]. split; eauto.
  - destruct (nth_error (loggers s) i) as [x|]; [|discriminate]. injection E as <-. destruct (log typeName level_of s x level text args); cbn; (split; [eauto|]; split; eauto).
  - injection E as <-. cbn. split; [eauto|]. split; eauto.
  - injection E as <-. cbn. split; [eauto|]. split; eauto.
Qed.
End PROOFS.

Lemma nth_error_more {A} (l : list A) y i x : nth_error l i = Some x -> nth_error (l ++ y) i = Some x.
Proof. intros H. rewrite nth_error_app1; [exact H|]. apply nth_error_Some. congruence. Qed.
Lemma history_keeps : forall l g made i a, nth_error made i = Some a -> nth_error (snd (history g made l)) i = Some a.
Proof.
  induction l as [|e l IH]; intros g made i a H; [exact H|]. destruct e; cbn [history]; apply IH; auto using nth_error_more.
  destruct (nth_error made i0); auto using nth_error_more.
Qed.
Lemma history_app : forall l l' g made, history g made (l ++ l') = history (fst (history g made l)) (snd (history g made l)) l'.
Proof. induction l as [|e l IH]; intros l' g made; [reflexivity|]. destruct e; cbn [history app]; apply IH. Qed.
Lemma attrs_paired l r : paired l r -> attrs_of l = r.
Proof. induction 1 as [|k x l r P IH|k v l r P IH]; [reflexivity| |]; cbn [attrs_of]; now rewrite IH. Qed.
Lemma attrs_app l r l' : paired l r -> attrs_of (l ++ l') = r ++ attrs_of l'.
Proof. induction 1 as [|k x l r P IH|k v l r P IH]; [reflexivity| |]; cbn [attrs_of app]; now rewrite IH. Qed.
Lemma level_spec n v : slogLevel n = Some v ->
  (n <= 6)%N /\ (v <= LevelDebug <-> (5 <= n)%N) /\ (v <= LevelInfo <-> (4 <= n)%N) /\ (v <= LevelWarn <-> (3 <= n)%N) /\ (v <= LevelError <-> (2 <= n)%N).
Proof.
  unfold slogLevel, LevelDebug, LevelInfo, LevelWarn, LevelError.
  repeat match goal with |- context [N.eqb n ?k] => destruct (N.eqb_spec n k) as [->|] end; cbn [orb]; intros E; try discriminate E; injection E as <-; repeat split; lia.
Qed.
Lemma level_none n : slogLevel n = None <-> (6 < n)%N.
Proof.
  unfold slogLevel. repeat match goal with |- context [N.eqb n ?k] => destruct (N.eqb_spec n k) as [->|] end; cbn [orb]; (split; [try discriminate; intros _; lia|intros; try lia; auto]).
Qed.
