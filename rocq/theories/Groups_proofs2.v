From Verif Require Import Base Bytes Dns Groups_model Groups_spec Groups_proofs.
From Coq Require Import Lia Permutation Arith.
Open Scope nat_scope.

(** ** The events of one call of fail-rotate or fail-back *)
Section Thread.
Variable n : nat.
Variable good : result -> bool.

Definition bads (failed : list (nat * result)) : Prop := Forall (fun a => fst a < n /\ good (snd a) = false) failed.

Definition thread_ok (t : nat) (p : pc) (evs : list gevent) : Prop :=
  match p with
  | Idle => evs = []
  | Ready i lst => exists failed, bads failed /\ length failed = i /\ i < n /\ lst = last (map snd failed) Drop /\
                                  evs = Call t :: flat_map (attempt t) failed
  | Waiting i idx => exists failed, bads failed /\ length failed = i /\ i < n /\ idx < n /\
                                    evs = Call t :: flat_map (attempt t) failed ++ [Sent t idx]
  | Bad i idx r => exists failed, bads failed /\ length failed = i /\ i < n /\ idx < n /\ good r = false /\
                                  evs = Call t :: flat_map (attempt t) failed ++ [Sent t idx; Reply t r]
  | Signalling i r => exists failed, bads failed /\ length failed = i + 1 /\ i + 1 <= n /\
                                     r = last (map snd failed) Drop /\ evs = Call t :: flat_map (attempt t) failed
  | Returned r => finished n good t r evs
  end.

Lemma ok_head t i r evs failed : bads failed -> length failed = i -> i <= n -> r = last (map snd failed) Drop ->
  evs = Call t :: flat_map (attempt t) failed -> thread_ok t (head n i r) evs.
Proof.
  intros Hb Hl Hi Hr He. unfold head. destruct (Nat.ltb_spec i n) as [H|H].
  - exists failed. auto.
  - exists failed. split; [exact Hb|]. right. split; [lia|]. split; [exact Hr|exact He].
Qed.

Lemma ok_call t : thread_ok t (head n 0 Drop) [Call t].
Proof. apply ok_head with (failed := []); [constructor|reflexivity|lia|reflexivity|reflexivity]. Qed.

Lemma ok_sent t i r evs idx : thread_ok t (Ready i r) evs -> idx < n -> thread_ok t (Waiting i idx) (evs ++ [Sent t idx]).
Proof.
  intros (failed & Hb & Hl & Hi & Hr & ->) Hx. exists failed.
  split; [exact Hb|]. split; [exact Hl|]. split; [exact Hi|]. split; [exact Hx|]. reflexivity.
Qed.

Lemma ok_reply t i idx evs r : thread_ok t (Waiting i idx) evs ->
  thread_ok t (if good r then Returned r else Bad i idx r) (evs ++ [Reply t r]).
Proof.
  intros (failed & Hb & Hl & Hi & Hx & ->). destruct (good r) eqn:Eg; exists failed.
  - split; [exact Hb|]. left. exists idx. split; [exact Hx|]. split; [exact Eg|]. split; [lia|].
    cbn [app]. rewrite <- app_assoc. reflexivity.
  - split; [exact Hb|]. split; [exact Hl|]. split; [exact Hi|]. split; [exact Hx|]. split; [exact Eg|].
    cbn [app]. rewrite <- app_assoc. reflexivity.
Qed.

Lemma ok_failed t i idx r evs : thread_ok t (Bad i idx r) evs -> thread_ok t (Signalling i r) (evs ++ [Failed t]).
Proof.
  intros (failed & Hb & Hl & Hi & Hx & Hg & ->). exists (failed ++ [(idx, r)]).
  split. { apply Forall_app. split; [exact Hb|]. constructor; [|constructor]. split; [exact Hx|exact Hg]. }
  split; [rewrite app_length; cbn; lia|]. split; [lia|].
  split. { rewrite map_app. cbn [map]. rewrite last_last. reflexivity. }
  rewrite flat_map_app. cbn [flat_map attempt fst snd app]. rewrite <- app_assoc. reflexivity.
Qed.

Lemma ok_signalled t i r evs : thread_ok t (Signalling i r) evs -> thread_ok t (head n (i + 1) r) evs.
Proof. intros (failed & Hb & Hl & Hi & Hr & ->). eapply ok_head; eauto. Qed.
End Thread.

Ltac own t := rewrite (mine_own t); [|cbn [of_call]; apply Nat.eqb_refl].
Ltac other t := rewrite (mine_other t); [|cbn [of_call]; apply Nat.eqb_neq; congruence].

(** ** Fail-rotate *)
Section FR.
Variable n : nat.
Variable good : result -> bool.

Lemma fr_active l s : 0 < n -> exec (fr_step n good) g_init l = Some s -> g_active s < n.
Proof.
  intros Hn. apply (exec_inv (fr_step n good) (fun l s => g_active s < n)); [exact Hn|].
  clear l s. intros l s e s' Ha He.
  destruct e as [t|t idx|t r|t|t| | | |d|t|x]; cbn [fr_step] in He; try discriminate;
    destruct (g_pc s t); try discriminate.
  - inversion He; subst. exact Ha.
  - destruct (Nat.eqb_spec idx (g_active s)); [|discriminate]. inversion He; subst. exact Ha.
  - inversion He; subst. exact Ha.
  - inversion He; subst. cbn [g_active]. destruct (Nat.eqb _ _); [apply Nat.mod_upper_bound; lia|exact Ha].
Qed.

Lemma fr_thread l s t : exec (fr_step n good) g_init l = Some s ->
  thread_ok n good t (g_pc s t) (mine t l) /\ (0 < n -> g_active s < n).
Proof.
  apply (exec_inv (fr_step n good) (fun l s => thread_ok n good t (g_pc s t) (mine t l) /\ (0 < n -> g_active s < n))).
  { split; [reflexivity|auto]. }
  clear l s. intros l s e s' [H Ha] He.
  destruct e as [u|u idx|u r|u|u| | | |d|u|x]; cbn [fr_step] in He; try discriminate;
    destruct (g_pc s u) as [|i lst|i idx'|i idx' r'|i r'|r'] eqn:Ep; try discriminate.
  - inversion He; subst; clear He. cbn [g_set g_pc g_active]. split; [|exact Ha].
    destruct (Nat.eq_dec t u) as [<-|Hne].
    + rewrite setpc_eq. own t. rewrite Ep in H. rewrite H. apply ok_call.
    + rewrite setpc_neq by exact Hne. other t. exact H.
  - destruct (Nat.eqb_spec idx (g_active s)) as [->|]; [|discriminate].
    inversion He; subst; clear He. cbn [g_set g_pc g_active]. split; [|exact Ha].
    destruct (Nat.eq_dec t u) as [<-|Hne].
    + rewrite setpc_eq. own t. rewrite Ep in H. eapply ok_sent; [exact H|].
      apply Ha. destruct H as (? & _ & _ & H & _). lia.
    + rewrite setpc_neq by exact Hne. other t. exact H.
  - inversion He; subst; clear He. cbn [g_set g_pc g_active]. split; [|exact Ha].
    destruct (Nat.eq_dec t u) as [<-|Hne].
    + rewrite setpc_eq. own t. rewrite Ep in H. apply ok_reply. exact H.
    + rewrite setpc_neq by exact Hne. other t. exact H.
  - inversion He; subst; clear He. cbn [g_pc g_active]. split.
    + destruct (Nat.eq_dec t u) as [<-|Hne].
      * rewrite setpc_eq. own t. rewrite Ep in H. apply ok_signalled. eapply ok_failed. exact H.
      * rewrite setpc_neq by exact Hne. other t. exact H.
    + intros Hn. destruct (Nat.eqb _ _); [apply Nat.mod_upper_bound; lia|auto].
Qed.

(** Calls that fail with the same resolver move the group by one. *)
Definition holds_bad (s : group) (p t : nat) : Prop := exists i r, g_pc s t = Bad i p r.

Lemma fr_step_fails s e s' p (done : list nat) :
  (forall t, In t (failures [e]) -> ~ In t done /\ holds_bad s p t) -> fr_step n good s e = Some s' ->
  g_active s' = (if existsb (fun _ => true) (failures [e]) then (if Nat.eqb p (g_active s) then (g_active s + 1) mod n else g_active s) else g_active s).
Proof.
  intros Hf He. destruct e as [u|u idx|u r|u|u| | | |d|u|x]; cbn [fr_step] in He; try discriminate;
    destruct (g_pc s u) as [|i lst|i idx'|i idx' r'|i r'|r'] eqn:Ep; try discriminate; cbn [failures existsb].
  - inversion He; subst. reflexivity.
  - destruct (Nat.eqb_spec idx (g_active s)); [|discriminate]. inversion He; subst. reflexivity.
  - inversion He; subst. reflexivity.
  - inversion He; subst. cbn [g_active orb]. destruct (Hf u ltac:(left; reflexivity)) as [_ (i2 & r2 & H2)].
    rewrite Ep in H2. inversion H2; subst. reflexivity.
Qed.

Lemma fr_step_pc s e s' t : of_call t e = false -> fr_step n good s e = Some s' -> g_pc s' t = g_pc s t.
Proof.
  intros Ho He. destruct e as [u|u idx|u r|u|u| | | |d|u|x]; cbn [fr_step] in He; try discriminate;
    cbn [of_call] in Ho; apply Nat.eqb_neq in Ho;
    destruct (g_pc s u) as [|i lst|i idx'|i idx' r'|i r'|r'] eqn:Ep; try discriminate.
  - inversion He; subst. cbn. apply setpc_neq. congruence.
  - destruct (Nat.eqb_spec idx (g_active s)); [|discriminate]. inversion He; subst. apply setpc_neq. congruence.
  - inversion He; subst. apply setpc_neq. congruence.
  - inversion He; subst. apply setpc_neq. congruence.
Qed.

(** A call that is at Bad can only record the failure. *)
Lemma fr_step_bad s e s' t i p r : g_pc s t = Bad i p r -> fr_step n good s e = Some s' ->
  e = Failed t \/ g_pc s' t = Bad i p r.
Proof.
  intros Hb He. destruct (of_call t e) eqn:Eo.
  2: { right. rewrite (fr_step_pc s e s' t Eo He). exact Hb. }
  destruct e as [u|u idx|u r0|u|u| | | |d|u|x]; cbn [of_call] in Eo; try discriminate;
    apply Nat.eqb_eq in Eo; subst; cbn [fr_step] in He; rewrite Hb in He; try discriminate. left; reflexivity.
Qed.

Lemma fr_coalesce_gen l : forall s s' p, g_active s < n -> exec (fr_step n good) s l = Some s' ->
  (forall t, In t (failures l) -> holds_bad s p t) -> NoDup (failures l) ->
  g_active s' = (if existsb (fun _ => true) (failures l)
                 then (if Nat.eqb p (g_active s) then (g_active s + 1) mod n else g_active s) else g_active s)
  \/ (n = 1 /\ g_active s' < n).
Proof.
  induction l as [|e l IH]; intros s s' p Ha H Hb Hnd.
  - inversion H; subst. left. reflexivity.
  - cbn [exec] in H. destruct (fr_step n good s e) as [s1|] eqn:E; [|discriminate].
    assert (Hact : g_active s1 = (if existsb (fun _ => true) (failures [e]) then (if Nat.eqb p (g_active s) then (g_active s + 1) mod n else g_active s) else g_active s)).
    { apply (fr_step_fails s e s1 p []); [|exact E]. intros t Ht. split; [exact (fun x => x)|]. apply Hb.
      change (e :: l) with ([e] ++ l). rewrite failures_app. apply in_or_app. left. exact Ht. }
    assert (Ha1 : g_active s1 < n).
    { rewrite Hact. destruct (existsb (fun _ => true) (failures [e])); [destruct (Nat.eqb p (g_active s))|]; try exact Ha. apply Nat.mod_upper_bound. lia. }
    assert (Hb1 : forall t, In t (failures l) -> holds_bad s1 p t).
    { intros t Ht. destruct (Hb t) as (i & r & Hp).
      { change (e :: l) with ([e] ++ l). rewrite failures_app. apply in_or_app. right. exact Ht. }
      destruct (fr_step_bad s e s1 t i p r Hp E) as [->|Hk].
      - cbn [failures] in Hnd. inversion Hnd; contradiction.
      - exists i, r. exact Hk. }
    assert (Hnd1 : NoDup (failures l)).
    { destruct e; cbn [failures] in Hnd; try exact Hnd. inversion Hnd; assumption. }
    destruct (Nat.eq_dec n 1) as [E1|E1].
    { right. split; [exact E1|]. specialize (IH s1 s' p Ha1 H Hb1 Hnd1).
      destruct IH as [->|[_ IH]]; [|exact IH].
      destruct (existsb (fun _ => true) (failures l)); [destruct (Nat.eqb p (g_active s1))|]; try exact Ha1. apply Nat.mod_upper_bound. lia. }
    specialize (IH s1 s' p Ha1 H Hb1 Hnd1). destruct IH as [IH|[IH _]]; [|contradiction].
    left. rewrite IH. change (e :: l) with ([e] ++ l). rewrite failures_app, existsb_app. rewrite Hact.
    destruct (existsb (fun _ => true) (failures [e])) eqn:X1; cbn [orb].
    + destruct (Nat.eqb_spec p (g_active s)) as [->|Hne].
      * rewrite succ_mod by exact Ha.
        destruct (Nat.eqb_spec (g_active s + 1) n) as [Ew|Ew].
        -- destruct (Nat.eqb_spec (g_active s) 0); [lia|]. destruct (existsb (fun _ => true) (failures l)); reflexivity.
        -- destruct (Nat.eqb_spec (g_active s) (g_active s + 1)); [lia|]. destruct (existsb (fun _ => true) (failures l)); reflexivity.
      * destruct (Nat.eqb_spec p (g_active s)); [contradiction|]. destruct (existsb (fun _ => true) (failures l)); reflexivity.
    + reflexivity.
Qed.

Lemma fr_coalesce s l s' p : 2 <= n -> g_active s < n -> exec (fr_step n good) s l = Some s' ->
  (forall t, In t (failures l) -> exists i r, g_pc s t = Bad i p r) -> NoDup (failures l) -> failures l <> [] ->
  g_active s' = if Nat.eqb p (g_active s) then (g_active s + 1) mod n else g_active s.
Proof.
  intros Hn Ha H Hb Hnd Hne. destruct (fr_coalesce_gen l s s' p Ha H Hb Hnd) as [E|[E _]]; [|lia].
  rewrite E. destruct (failures l); [contradiction|]. reflexivity.
Qed.

Lemma fr_stays s l s' : exec (fr_step n good) s l = Some s' -> failures l = [] -> g_active s' = g_active s.
Proof.
  revert s. induction l as [|e l IH]; intros s H Hf; [inversion H; reflexivity|].
  cbn [exec] in H. destruct (fr_step n good s e) as [s1|] eqn:E; [|discriminate].
  transitivity (g_active s1).
  - apply IH; [exact H|]. destruct e; cbn [failures] in Hf; try discriminate; exact Hf.
  - destruct e as [u|u idx|u r|u|u| | | |d|u|x]; cbn [fr_step failures] in *; try discriminate;
      destruct (g_pc s u); try discriminate.
    + inversion E; reflexivity.
    + destruct (Nat.eqb _ _); [|discriminate]. inversion E; reflexivity.
    + inversion E; reflexivity.
Qed.
End FR.
