From Verif Require Import Base Bytes Dns Groups_model Groups_spec Groups_proofs Groups_proofs2 Groups_proofs3.
From Coq Require Import Lia Permutation Arith QArith Qround Lqa.
Open Scope nat_scope.

(** ** Random *)
Lemma remove_one_perm x l : In x l -> Permutation (x :: remove_one x l) l.
Proof.
  induction l as [|y l IH]; intros H; [destruct H|]. cbn [remove_one].
  destruct (Nat.eqb_spec x y) as [->|Hne]; [reflexivity|].
  destruct H as [H|H]; [congruence|]. etransitivity; [apply perm_swap|]. constructor. apply IH. exact H.
Qed.

Lemma filter_split_perm {A} (f : A -> bool) l : Permutation (filter (fun x => negb (f x)) l ++ filter f l) l.
Proof.
  induction l as [|x l IH]; [reflexivity|]. cbn [filter]. destruct (f x); cbn [negb app].
  - etransitivity; [symmetry; apply Permutation_middle|]. constructor. exact IH.
  - constructor. exact IH.
Qed.

Lemma existsb_eqb x l : existsb (Nat.eqb x) l = true <-> In x l.
Proof.
  rewrite existsb_exists. split.
  - intros (y & Hi & E). apply Nat.eqb_eq in E. subst. exact Hi.
  - intros H. exists x. split; [exact H|apply Nat.eqb_refl].
Qed.

Section Random.
Variable good : result -> bool.
Variable resolvers : list nat.
Notation step := (rnd_step good).

Ltac rcases e He := destruct e as [u|u idx|u r|u|u| | | |d|u|x0]; cbn [rnd_step] in He; try discriminate.
Ltac pcs s u Ep := destruct (r_pc s u) as [|i lst|i idx'|i idx' r'|i r'|r'] eqn:Ep; try discriminate.

Lemma rnd_perm l s : exec step (rnd_init resolvers) l = Some s -> Permutation (r_active s ++ r_sleep s) resolvers.
Proof.
  apply (exec_inv step (fun l s => Permutation (r_active s ++ r_sleep s) resolvers)).
  - cbn. rewrite app_nil_r. reflexivity.
  - clear l s. intros l s e s' H He. rcases e He.
    + pcs s u Ep. inversion He; exact H.
    + pcs s u Ep. destruct (existsb _ _); [|discriminate]. inversion He; exact H.
    + pcs s u Ep. inversion He; exact H.
    + pcs s u Ep. inversion He; subst; clear He. cbn [r_active r_sleep]. etransitivity; [|exact H].
      etransitivity; [apply Permutation_app_head, Permutation_app_comm|]. rewrite app_assoc.
      apply Permutation_app_tail. apply (filter_split_perm (fun y => Nat.eqb y idx')).
    + pcs s u Ep. destruct (r_active s) eqn:Ea; [|discriminate]. inversion He; exact H.
    + destruct (existsb _ _) eqn:Ex; [|discriminate]. apply existsb_eqb in Ex. inversion He; subst; clear He.
      cbn [r_active r_sleep]. etransitivity; [|exact H]. rewrite <- app_assoc.
      apply Permutation_app_head. cbn. apply remove_one_perm. exact Ex.
Qed.

(** x may be chosen: every failure of x was followed by a reactivation *)
Lemma snoc_split {A} (l l1 : list A) e f l2 : l ++ [e] = l1 ++ f :: l2 ->
  (l2 = [] /\ l1 = l /\ f = e) \/ (exists l2', l2 = l2' ++ [e] /\ l = l1 ++ f :: l2').
Proof.
  destruct l2 as [|y l2] using rev_ind; intros H.
  - left. apply app_inj_tail in H. destruct H. auto.
  - right. clear IHl2. change (l1 ++ f :: l2 ++ [y]) with (l1 ++ (f :: l2) ++ [y]) in H. rewrite app_assoc in H.
    apply app_inj_tail in H. destruct H as [H <-]. exists l2. auto.
Qed.

Lemma eligible_other x l e : (forall t, e <> Failed t) -> e <> Reactivate x -> (eligible x (l ++ [e]) <-> eligible x l).
Proof.
  intros Hf Hr. split; intros H l1 t l2 E Hs.
  - specialize (H l1 t (l2 ++ [e])). rewrite E, <- app_assoc in H. specialize (H eq_refl Hs).
    apply in_app_or in H. destruct H as [H|[H|[]]]; [exact H|contradiction].
  - apply snoc_split in E. destruct E as [(_ & _ & E)|(l2' & -> & E)].
    + exfalso. exact (Hf t (eq_sym E)).
    + apply in_or_app. left. exact (H l1 t l2' E Hs).
Qed.

Lemma eligible_failed x l t y : last_sent t l None = Some y -> (eligible x (l ++ [Failed t]) <-> x <> y /\ eligible x l).
Proof.
  intros Hy. split.
  - intros H. split.
    + intros ->. exact (H l t [] eq_refl Hy).
    + intros l1 u l2 E Hs. specialize (H l1 u (l2 ++ [Failed t])). rewrite E, <- app_assoc in H.
      specialize (H eq_refl Hs). apply in_app_or in H. destruct H as [H|[H|[]]]; [exact H|discriminate].
  - intros [Hne H] l1 u l2 E Hs. apply snoc_split in E. destruct E as [(_ & -> & E)|(l2' & -> & E)].
    + inversion E; subst. congruence.
    + apply in_or_app. left. exact (H l1 u l2' E Hs).
Qed.

Lemma eligible_react x l : eligible x (l ++ [Reactivate x]).
Proof.
  intros l1 t l2 E Hs. apply snoc_split in E. destruct E as [(_ & _ & E)|(l2' & -> & E)]; [discriminate|].
  apply in_or_app. right. left. reflexivity.
Qed.

Definition rlinked (l : list gevent) (pcs : nat -> pc) : Prop :=
  forall u, match pcs u with
            | Waiting _ x | Bad _ x _ => last_sent u l None = Some x /\ In x resolvers
            | _ => True
            end.

Lemma rlinked_set l pcs e u p :
  rlinked l pcs -> (forall v, v <> u -> last_sent v [e] (last_sent v l None) = last_sent v l None) ->
  match p with
  | Waiting _ idx | Bad _ idx _ => last_sent u [e] (last_sent u l None) = Some idx /\ In idx resolvers
  | _ => True
  end -> rlinked (l ++ [e]) (setpc pcs u p).
Proof.
  intros H Ho Hp v. destruct (Nat.eq_dec v u) as [->|Hne].
  - rewrite setpc_eq. destruct p; try exact I; rewrite last_sent_app; exact Hp.
  - rewrite setpc_neq by exact Hne. specialize (H v). destruct (pcs v); try exact I;
    rewrite last_sent_app, Ho by exact Hne; exact H.
Qed.

Lemma rnd_eligible l s : exec step (rnd_init resolvers) l = Some s ->
  rlinked l (r_pc s) /\ (forall x, In x (r_active s) -> In x resolvers) /\
  (forall x, In x resolvers -> (In x (r_active s) <-> eligible x l)).
Proof.
  intros H. assert (Hp : Permutation (r_active s ++ r_sleep s) resolvers) by (eapply rnd_perm; exact H).
  cut (rlinked l (r_pc s) /\ Permutation (r_active s ++ r_sleep s) resolvers /\ (forall x, In x resolvers -> (In x (r_active s) <-> eligible x l))).
  { intros (H1 & _ & H2). split; [exact H1|]. split; [|exact H2].
    intros x Hx. eapply Permutation_in; [exact Hp|]. apply in_or_app. left. exact Hx. }
  clear Hp. revert l s H.
  apply (exec_inv step (fun l s => rlinked l (r_pc s) /\ Permutation (r_active s ++ r_sleep s) resolvers /\
     (forall x, In x resolvers -> (In x (r_active s) <-> eligible x l)))).
  - split; [intros u; exact I|]. split; [cbn; rewrite app_nil_r; reflexivity|].
    intros x Hx. cbn. split; [|auto]. intros _ l1 t l2 E. destruct l1; discriminate.
  - intros l s e s' (Hl & Hp & Hx) He.
    assert (Hp' : Permutation (r_active s' ++ r_sleep s') resolvers).
    { rcases e He.
      + pcs s u Ep. inversion He; exact Hp.
      + pcs s u Ep. destruct (existsb _ _); [|discriminate]. inversion He; exact Hp.
      + pcs s u Ep. inversion He; exact Hp.
      + pcs s u Ep. inversion He; subst; clear He. cbn [r_active r_sleep]. etransitivity; [|exact Hp].
        etransitivity; [apply Permutation_app_head, Permutation_app_comm|]. rewrite app_assoc.
        apply Permutation_app_tail. apply (filter_split_perm (fun y => Nat.eqb y idx')).
      + pcs s u Ep. destruct (r_active s) eqn:Ea; [|discriminate]. inversion He; exact Hp.
      + destruct (existsb _ _) eqn:Ex; [|discriminate]. apply existsb_eqb in Ex. inversion He; subst; clear He.
        cbn [r_active r_sleep]. etransitivity; [|exact Hp]. rewrite <- app_assoc.
        apply Permutation_app_head. cbn. apply remove_one_perm. exact Ex. }
    assert (Hact : forall x, In x (r_active s) -> In x resolvers).
    { intros x Hi. eapply Permutation_in; [exact Hp|]. apply in_or_app. left. exact Hi. }
    rcases e He.
    + pcs s u Ep. inversion He; subst; clear He. cbn [r_pc r_active r_sleep] in *. split.
      { apply rlinked_set; [exact Hl|reflexivity|exact I]. }
      split; [exact Hp'|]. intros x Hr. rewrite eligible_other; [apply Hx; exact Hr|discriminate|discriminate].
    + pcs s u Ep. destruct (existsb _ _) eqn:Ex; [|discriminate]. apply existsb_eqb in Ex.
      inversion He; subst; clear He. cbn [r_pc r_active r_sleep] in *. split.
      { apply rlinked_set; [exact Hl| |].
        - intros v Hv. cbn [last_sent]. destruct (Nat.eqb_spec u v); [congruence|reflexivity].
        - cbn [last_sent]. rewrite Nat.eqb_refl. split; [reflexivity|apply Hact; exact Ex]. }
      split; [exact Hp'|]. intros x Hr. rewrite eligible_other; [apply Hx; exact Hr|discriminate|discriminate].
    + pose proof (Hl u) as Hu. pcs s u Ep. inversion He; subst; clear He. cbn [r_pc r_active r_sleep] in *. split.
      { apply rlinked_set; [exact Hl|reflexivity|]. destruct (good r); [exact I|exact Hu]. }
      split; [exact Hp'|]. intros x Hr. rewrite eligible_other; [apply Hx; exact Hr|discriminate|discriminate].
    + pose proof (Hl u) as Hu. pcs s u Ep. inversion He; subst; clear He. cbn [r_pc r_active r_sleep] in *. split.
      { apply rlinked_set; [exact Hl|reflexivity|exact I]. }
      split; [exact Hp'|]. intros x Hr. destruct Hu as [Hu _]. rewrite (eligible_failed x l u idx' Hu).
      rewrite filter_In, (Hx x Hr). destruct (Nat.eqb_spec x idx'); cbn [negb]; intuition congruence.
    + pcs s u Ep. destruct (r_active s) eqn:Ea; [|discriminate]. inversion He; subst; clear He.
      cbn [r_pc r_active r_sleep] in *. split.
      { apply rlinked_set; [exact Hl|reflexivity|exact I]. }
      split; [exact Hp'|]. intros x Hr. rewrite eligible_other; [apply Hx; exact Hr|discriminate|discriminate].
    + destruct (existsb _ _) eqn:Ex; [|discriminate]. apply existsb_eqb in Ex. inversion He; subst; clear He.
      cbn [r_pc r_active r_sleep] in *. split.
      { intros u. specialize (Hl u). destruct (r_pc s u); try exact I; rewrite last_sent_app; exact Hl. }
      split; [exact Hp'|]. intros y Hr. rewrite in_app_iff. destruct (Nat.eq_dec y x0) as [->|Hne].
      * split; [intros _; apply eligible_react|intros _; right; left; reflexivity].
      * rewrite eligible_other; [|discriminate|congruence]. rewrite <- (Hx y Hr). cbn. intuition congruence.
Qed.

Definition rbads (failed : list (nat * result)) : Prop := Forall (fun a => In (fst a) resolvers /\ good (snd a) = false) failed.

Definition rthread_ok (t : nat) (p : pc) (l : list gevent) : Prop :=
  match p with
  | Idle => mine t l = []
  | Ready i lst => exists failed, rbads failed /\ mine t l = Call t :: flat_map (attempt t) failed
  | Waiting i x => exists failed, rbads failed /\ In x resolvers /\ mine t l = Call t :: flat_map (attempt t) failed ++ [Sent t x]
  | Bad i x r => exists failed, rbads failed /\ In x resolvers /\ good r = false /\
                                mine t l = Call t :: flat_map (attempt t) failed ++ [Sent t x; Reply t r]
  | Signalling _ _ => False
  | Returned r => rnd_finished resolvers good t r l
  end.

Lemma rnd_thread l s t : exec step (rnd_init resolvers) l = Some s -> rthread_ok t (r_pc s t) l.
Proof.
  intros H. cut (exec step (rnd_init resolvers) l = Some s /\ rthread_ok t (r_pc s t) l); [tauto|].
  revert l s H. apply (exec_inv step (fun l s => exec step (rnd_init resolvers) l = Some s /\ rthread_ok t (r_pc s t) l)).
  { split; reflexivity. }
  intros l s e s' [Hx H] He.
  split. { rewrite exec_app, Hx. cbn. rewrite He. reflexivity. }
  destruct (rnd_eligible l s Hx) as (Hl & Hact & Hel).
  assert (Hsame : of_call t e = false -> r_pc s' t = r_pc s t -> rthread_ok t (r_pc s' t) (l ++ [e])).
  { intros Ho ->. destruct (r_pc s t); cbn [rthread_ok] in *; try (rewrite mine_other by exact Ho; exact H); [destruct H|].
    destruct H as (failed & Hb & H). exists failed. split; [exact Hb|]. rewrite mine_other by exact Ho.
    destruct H as [H|(H1 & H2 & l1 & l2 & H3 & H4)]; [left; exact H|right].
    split; [exact H1|]. split; [exact H2|]. exists l1, (l2 ++ [e]). split; [|exact H4]. rewrite H3, <- app_assoc. reflexivity. }
  rcases e He.
  - pcs s u Ep. inversion He; subst; clear He. cbn [r_pc] in *. destruct (Nat.eq_dec t u) as [<-|Hne].
    + rewrite setpc_eq. rewrite Ep in H. cbn [rthread_ok] in *. exists []. split; [constructor|]. own t. rewrite H. reflexivity.
    + apply Hsame; [apply Nat.eqb_neq; congruence|apply setpc_neq; exact Hne].
  - pcs s u Ep. destruct (existsb _ _) eqn:Ex; [|discriminate]. apply existsb_eqb in Ex.
    inversion He; subst; clear He. cbn [r_pc] in *. destruct (Nat.eq_dec t u) as [<-|Hne].
    + rewrite setpc_eq. rewrite Ep in H. cbn [rthread_ok] in *. destruct H as (failed & Hb & H). exists failed.
      split; [exact Hb|]. split; [apply Hact; exact Ex|]. own t. rewrite H. reflexivity.
    + apply Hsame; [apply Nat.eqb_neq; congruence|apply setpc_neq; exact Hne].
  - pcs s u Ep. inversion He; subst; clear He. cbn [r_pc] in *. destruct (Nat.eq_dec t u) as [<-|Hne].
    + rewrite setpc_eq. rewrite Ep in H. cbn [rthread_ok] in H. destruct H as (failed & Hb & Hi & H).
      destruct (good r) eqn:Eg; cbn [rthread_ok]; exists failed; (split; [exact Hb|]).
      * left. exists idx'. split; [exact Hi|]. split; [exact Eg|]. own t. rewrite H. cbn. rewrite <- app_assoc. reflexivity.
      * split; [exact Hi|]. split; [exact Eg|]. own t. rewrite H. cbn. rewrite <- app_assoc. reflexivity.
    + apply Hsame; [apply Nat.eqb_neq; congruence|apply setpc_neq; exact Hne].
  - pcs s u Ep. inversion He; subst; clear He. cbn [r_pc] in *. destruct (Nat.eq_dec t u) as [<-|Hne].
    + rewrite setpc_eq. rewrite Ep in H. cbn [rthread_ok] in *. destruct H as (failed & Hb & Hi & Hg & H).
      exists (failed ++ [(idx', r')]). split.
      { apply Forall_app. split; [exact Hb|]. constructor; [split; assumption|constructor]. }
      own t. rewrite H, flat_map_app. cbn [flat_map attempt fst snd app]. rewrite <- app_assoc. reflexivity.
    + apply Hsame; [apply Nat.eqb_neq; congruence|apply setpc_neq; exact Hne].
  - pcs s u Ep. destruct (r_active s) eqn:Ea; [|discriminate]. inversion He; subst; clear He. cbn [r_pc] in *.
    destruct (Nat.eq_dec t u) as [<-|Hne].
    + rewrite setpc_eq. rewrite Ep in H. cbn [rthread_ok] in *. destruct H as (failed & Hb & H). exists failed.
      split; [exact Hb|]. right. split; [reflexivity|]. split; [rewrite mine_other by reflexivity; exact H|].
      exists l, []. split; [reflexivity|]. intros x Hr Hc. apply (Hel x Hr) in Hc. destruct Hc.
    + apply Hsame; [reflexivity|apply setpc_neq; exact Hne].
  - destruct (existsb _ _) eqn:Ex; [|discriminate]. inversion He; subst; clear He. apply Hsame; reflexivity.
Qed.

(** a resolver that always answers keeps the group going *)
Lemma rnd_good_answer g l s t r : In g resolvers -> exec step (rnd_init resolvers) l = Some s -> always_good good g l ->
  r_pc s t = Returned r -> good r = true.
Proof.
  intros Hi H Hg Hr. pose proof (rnd_thread l s t H) as Hk. rewrite Hr in Hk.
  destruct Hk as (failed & Hb & [(x & _ & Hgood & _)|(_ & _ & l1 & l2 & E & Hn)]); [exact Hgood|].
  exfalso. apply (Hn g Hi). subst l. rewrite exec_app in H.
  destruct (exec step (rnd_init resolvers) l1) as [s1|] eqn:E1; [|discriminate].
  apply always_good_prefix in Hg.
  intros a u b E Hs. subst l1.
  (* the failure recorded by u follows a bad reply of g to u *)
  rewrite exec_app in E1. destruct (exec step (rnd_init resolvers) a) as [sa|] eqn:Ea; [|discriminate].
  cbn [exec rnd_step] in E1. destruct (r_pc sa u) as [|i lst|i idx'|i idx' r'|i r'|r'] eqn:Ep; try discriminate.
  exfalso. clear E1 Hn H.
  assert (Hbad : forall l s, exec step (rnd_init resolvers) l = Some s -> always_good good g l ->
            forall u i r, r_pc s u = Bad i g r -> False).
  { clear - Hi. intros l s H.
    cut (exec step (rnd_init resolvers) l = Some s /\ (always_good good g l -> forall u i r, r_pc s u = Bad i g r -> False)); [tauto|].
    revert l s H. apply (exec_inv step (fun l s => exec step (rnd_init resolvers) l = Some s /\ (always_good good g l -> forall u i r, r_pc s u = Bad i g r -> False))).
    { split; [reflexivity|]. intros _ u i r H. discriminate. }
    intros l s e s' [Hx IH] He. split. { rewrite exec_app, Hx. cbn. rewrite He. reflexivity. }
    intros Hg. specialize (IH (always_good_prefix _ _ _ _ Hg)). destruct (rnd_eligible l s Hx) as (Hl & _ & _).
    intros v j w Hv. rcases e He.
    - pcs s u Ep. inversion He; subst; clear He. cbn [r_pc] in Hv. unfold setpc in Hv.
      destruct (Nat.eqb v u); [discriminate|]. exact (IH _ _ _ Hv).
    - pcs s u Ep. destruct (existsb _ _); [|discriminate]. inversion He; subst; clear He. cbn [r_pc] in Hv. unfold setpc in Hv.
      destruct (Nat.eqb v u); [discriminate|]. exact (IH _ _ _ Hv).
    - pose proof (Hl u) as Hu. pcs s u Ep. inversion He; subst; clear He. cbn [r_pc] in Hv. unfold setpc in Hv.
      destruct (Nat.eqb_spec v u) as [->|]; [|exact (IH _ _ _ Hv)].
      destruct (good r) eqn:Eg; [discriminate|]. inversion Hv; subst. destruct Hu as [Hu _].
      pose proof (always_good_last _ _ _ _ _ Hg Hu). congruence.
    - pcs s u Ep. inversion He; subst; clear He. cbn [r_pc] in Hv. unfold setpc in Hv.
      destruct (Nat.eqb v u); [discriminate|]. exact (IH _ _ _ Hv).
    - pcs s u Ep. destruct (r_active s); [|discriminate]. inversion He; subst; clear He. cbn [r_pc] in Hv. unfold setpc in Hv.
      destruct (Nat.eqb v u); [discriminate|]. exact (IH _ _ _ Hv).
    - destruct (existsb _ _); [|discriminate]. inversion He; subst; clear He. exact (IH _ _ _ Hv). }
  destruct (rnd_eligible a sa Ea) as (Hl & _ & _). specialize (Hl u). rewrite Ep in Hl. destruct Hl as [Hl _].
  rewrite Hl in Hs. inversion Hs; subst.
  eapply Hbad; [exact Ea| |exact Ep]. eapply always_good_prefix. exact Hg.
Qed.

(** how often one call asks the same resolver *)
Fixpoint asked (t x : nat) (l : list gevent) : nat :=
  match l with [] => 0 | Sent t' y :: l' => (if Nat.eqb t' t && Nat.eqb y x then 1 else 0) + asked t x l' | _ :: l' => asked t x l' end.
Lemma asked_app t x l1 l2 : asked t x (l1 ++ l2) = asked t x l1 + asked t x l2.
Proof. induction l1 as [|e l1 IH]; [reflexivity|]. destruct e; cbn [app asked]; rewrite IH; lia. Qed.
Lemma reacts_app x l1 l2 : reacts x (l1 ++ l2) = reacts x l1 + reacts x l2.
Proof. induction l1 as [|e l1 IH]; [reflexivity|]. destruct e; cbn [app reacts]; rewrite IH; lia. Qed.

Definition holding (p : pc) (x : nat) : Prop :=
  match p with Waiting _ y | Bad _ y _ => y = x | Returned _ => True | _ => False end.

Lemma rnd_asked x t : forall l s0 s, exec step s0 l = Some s -> 
  asked t x l <= reacts x l \/ (asked t x l <= reacts x l + 1 /\ (~ In x (r_active s) \/ holding (r_pc s t) x)).
Proof.
  intros l s0 s H. revert l s H.
  apply (exec_inv step (fun l s => asked t x l <= reacts x l \/ (asked t x l <= reacts x l + 1 /\ (~ In x (r_active s) \/ holding (r_pc s t) x)))).
  - left. cbn. lia.
  - intros l s e s' H He. rewrite asked_app, reacts_app.
    assert (Hkeep : asked t x [e] = 0 -> (forall y, e <> Reactivate y) -> (In x (r_active s') -> In x (r_active s)) ->
       (holding (r_pc s t) x -> holding (r_pc s' t) x \/ ~ In x (r_active s')) ->
       asked t x l + asked t x [e] <= reacts x l + reacts x [e] \/
       (asked t x l + asked t x [e] <= reacts x l + reacts x [e] + 1 /\ (~ In x (r_active s') \/ holding (r_pc s' t) x))).
    { intros Ha _ Hi Hh. destruct H as [H|(H & Hc)]; [left; lia|right]. split; [lia|]. tauto. }
    rcases e He.
    + pcs s u Ep. inversion He; subst; clear He. cbn [r_pc r_active] in *.
      apply Hkeep; [reflexivity|discriminate|auto|]. destruct (Nat.eq_dec t u) as [<-|Hne].
      * rewrite setpc_eq, Ep. intros [].
      * rewrite setpc_neq by exact Hne. auto.
    + pcs s u Ep. destruct (existsb _ _) eqn:Ex; [|discriminate]. apply existsb_eqb in Ex.
      inversion He; subst; clear He. cbn [r_pc r_active] in *. destruct (Nat.eq_dec u t) as [->|Hne].
      * destruct (Nat.eq_dec idx x) as [->|Hne].
        -- cbn [asked reacts]. rewrite !Nat.eqb_refl. cbn [andb]. destruct H as [H|(H & [Hc|Hc])].
           ++ right. split; [lia|]. right. rewrite setpc_eq. reflexivity.
           ++ contradiction.
           ++ rewrite Ep in Hc. destruct Hc.
        -- apply Hkeep; [|discriminate|auto|].
           ++ cbn [asked]. apply Nat.eqb_neq in Hne. rewrite Hne, andb_false_r. reflexivity.
           ++ rewrite Ep. intros [].
      * apply Hkeep; [|discriminate|auto|].
        -- cbn [asked]. destruct (Nat.eqb_spec u t); [contradiction|reflexivity].
        -- rewrite setpc_neq by congruence. auto.
    + pcs s u Ep. inversion He; subst; clear He. cbn [r_pc r_active] in *.
      apply Hkeep; [reflexivity|discriminate|auto|]. destruct (Nat.eq_dec t u) as [<-|Hne].
      * rewrite setpc_eq, Ep. cbn. intros ->. left. destruct (good r); [exact I|reflexivity].
      * rewrite setpc_neq by exact Hne. auto.
    + pcs s u Ep. inversion He; subst; clear He. cbn [r_pc r_active] in *.
      apply Hkeep; [reflexivity|discriminate| |].
      * intros Hi. apply filter_In in Hi. tauto.
      * destruct (Nat.eq_dec t u) as [<-|Hne].
        -- rewrite setpc_eq, Ep. cbn. intros ->. right. intros Hi. apply filter_In in Hi.
           rewrite Nat.eqb_refl in Hi. destruct Hi; discriminate.
        -- rewrite setpc_neq by exact Hne. auto.
    + pcs s u Ep. destruct (r_active s) eqn:Ea; [|discriminate]. inversion He; subst; clear He. cbn [r_pc r_active] in *.
      apply Hkeep; [reflexivity|discriminate|auto|]. destruct (Nat.eq_dec t u) as [<-|Hne].
      * rewrite setpc_eq, Ep. intros [].
      * rewrite setpc_neq by exact Hne. auto.
    + destruct (existsb _ _) eqn:Ex; [|discriminate]. inversion He; subst; clear He. cbn [r_pc r_active asked reacts] in *.
      destruct (Nat.eqb_spec x0 x) as [->|Hne].
      * left. destruct H as [H|(H & _)]; lia.
      * rewrite !Nat.add_0_r. destruct H as [H|(H & Hc)]; [left; exact H|right]. split; [exact H|].
        destruct Hc as [Hc|Hc]; [left|right; exact Hc]. intros Hi. apply in_app_or in Hi. destruct Hi as [Hi|[Hi|[]]]; [contradiction|congruence].
Qed.

Lemma asked_mine t x l : asked t x l = count_occ Nat.eq_dec (sents (mine t l)) x.
Proof.
  induction l as [|e l IH]; [reflexivity|].
  destruct e as [u|u idx|u r|u|u| | | |d|u|y]; cbn [asked mine filter of_call]; fold (mine t l);
    try exact IH; try (destruct (Nat.eqb u t); cbn [sents]; exact IH).
  destruct (Nat.eqb u t); cbn [sents count_occ andb plus]; [|exact IH].
  destruct (Nat.eqb_spec idx x) as [->|Hne]; destruct (Nat.eq_dec _ _); try congruence; rewrite IH; reflexivity.
Qed.

Lemma rnd_attempts l1 s1 l2 s t x : exec step (rnd_init resolvers) l1 = Some s1 -> exec step s1 l2 = Some s ->
  count_occ Nat.eq_dec (sents (mine t l2)) x <= reacts x l2 + 1.
Proof.
  intros _ H. rewrite <- asked_mine. destruct (rnd_asked x t l2 s1 s H) as [E|[E _]]; lia.
Qed.
End Random.
