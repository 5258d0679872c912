(** What becomes of queries, and what Start returns *)
From Verif Require Import Base Life_model Life_spec.
Local Open Scope nat_scope.

Lemma start_counts k ok s s' : start_step k ok s = Some s' -> inflight s' = inflight s /\ lost s' = lost s.
Proof.
  unfold start_step. intros H. destruct k as [u a| | | |], (pc s); try destruct u; try destruct a; try discriminate H; destruct ok; try discriminate H;
    repeat match type of H with context [if ?b then _ else _] => destruct b end; try discriminate H; injection H as <-; split; reflexivity.
Qed.
Lemma stop_counts k t s t' s' : stop_step k t s = Some (t', s') -> inflight s' + lost s' = inflight s + lost s.
Proof.
  unfold stop_step. intros H. destruct k as [u a| | | |], t; try discriminate H;
    repeat match type of H with context [if ?b then _ else _] => destruct b end; try discriminate H; injection H as <- <-; cbn; lia.
Qed.
Lemma step_counts k a s s' : step k a s = Some s' -> inflight s' + lost s' + answered [a] = inflight s + lost s + asked [a].
Proof.
  destruct a as [ok| |i| |]; cbn [step answered asked]; intros H.
  - apply start_counts in H. lia.
  - injection H as <-. cbn. lia.
  - destruct (nth_error (stops s) i) as [t|]; [|discriminate H]. destruct (stop_step k t s) as [[t' s1]|] eqn:E; [|discriminate H]. injection H as <-. apply stop_counts in E. cbn. lia.
  - destruct (accepts k s); [|discriminate H]. injection H as <-. cbn. lia.
  - destruct (inflight s) as [|n] eqn:E; [discriminate H|]. injection H as <-. cbn. lia.
Qed.
Lemma run_counts k ls : forall s s', run k ls s = Some s' -> inflight s' + lost s' + answered ls = inflight s + lost s + asked ls.
Proof.
  induction ls as [|a ls IH]; intros s s' H; cbn [run] in H; [injection H as <-; cbn; lia|]. destruct (step k a s) as [s1|] eqn:E; [|discriminate H].
  apply IH in H. apply step_counts in E. destruct a; cbn [answered asked] in *; lia.
Qed.
Lemma accounted k ls s : run k ls init = Some s -> asked ls = answered ls + inflight s + lost s.
Proof. intros H. apply run_counts in H. cbn in H. lia. Qed.

Definition ending (s : st) : Prop := down s = true /\ match pc s with Serving | Draining true | Returned true => True | _ => False end.
Lemma stop_ending k t s t' s' : stop_step k t s = Some (t', s') -> ending s -> ending s'.
Proof.
  unfold stop_step, ending. intros H [D P]. destruct k as [u a| | | |], t; try discriminate H;
    repeat match type of H with context [if ?b then _ else _] => destruct b end; try discriminate H; injection H as <- <-; cbn; auto.
Qed.
Lemma start_ending k ok s s' : start_step k ok s = Some s' -> ending s -> ending s'.
Proof.
  unfold start_step, ending. intros H [D P]. rewrite D in H. destruct (pc s) as [| | | |[|]|[|]]; try contradiction; destruct k as [u a| | | |]; try destruct a; try discriminate H; destruct ok; try discriminate H;
    repeat match type of H with context [if ?b then _ else _] => destruct b end; try discriminate H; injection H as <-; cbn; auto.
Qed.
Lemma step_ending k a s s' : step k a s = Some s' -> ending s -> ending s'.
Proof.
  destruct a as [ok| |i| |]; cbn [step]; intros H E.
  - exact (start_ending k ok s s' H E).
  - injection H as <-. exact E.
  - destruct (nth_error (stops s) i) as [t|]; [|discriminate H]. destruct (stop_step k t s) as [[t' s1]|] eqn:S; [|discriminate H]. injection H as <-. exact (stop_ending k t s t' s1 S E).
  - destruct (accepts k s); [|discriminate H]. injection H as <-. exact E.
  - destruct (inflight s); [discriminate H|]. injection H as <-. exact E.
Qed.
Lemma run_ending k ls : forall s s', run k ls s = Some s' -> ending s -> ending s'.
Proof. induction ls as [|a ls IH]; intros s s' H E; cbn [run] in H; [injection H as <-; exact E|]. destruct (step k a s) as [s1|] eqn:S; [|discriminate H]. exact (IH s1 s' H (step_ending k a s s1 S E)). Qed.
Lemma no_error k ls s : run k ls init = Some s -> serving s = true -> down s = true -> forall ls' s' ok, run k ls' s = Some s' -> pc s' = Returned ok -> ok = true.
Proof.
  intros _ S D ls' s' ok R P. assert (E : ending s) by (split; [exact D|]; unfold serving in S; destruct (pc s); try discriminate S; exact I).
  apply (run_ending k ls' s s' R) in E. destruct E as [_ E]. rewrite P in E. destruct ok; [reflexivity|contradiction].
Qed.
