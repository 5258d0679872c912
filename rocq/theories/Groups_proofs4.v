From Verif Require Import Base Bytes Dns Groups_model Groups_spec Groups_proofs Groups_proofs2 Groups_proofs3.
From Coq Require Import Lia Permutation Arith.
Open Scope nat_scope.

(** ** Fail-back *)
Section FB.
Variable n : nat.
Variable good : result -> bool.
Variable resetAfter : Z.
Notation step := (fb_step n good resetAfter).

Ltac fbcases e He := destruct e as [u|u idx|u r|u|u| | | |d|u|x]; cbn [fb_step] in He; try discriminate.

Lemma fb_thread l s t : exec step fb_init l = Some s ->
  thread_ok n good t (fb_pc s t) (mine t l) /\ (0 < n -> fb_active s < n).
Proof.
  apply (exec_inv step (fun l s => thread_ok n good t (fb_pc s t) (mine t l) /\ (0 < n -> fb_active s < n))).
  { split; [reflexivity|auto]. }
  clear l s. intros l s e s' [H Ha] He. fbcases e He.
  - destruct (fb_pc s u) as [|i lst|i idx'|i idx' r'|i r'|r'] eqn:Ep; try discriminate.
    inversion He; subst; clear He. cbn [fb_set fb_pc fb_active]. split; [|exact Ha].
    destruct (Nat.eq_dec t u) as [<-|Hne].
    + rewrite setpc_eq. own t. rewrite Ep in H. rewrite H. apply ok_call.
    + rewrite setpc_neq by exact Hne. other t. exact H.
  - destruct (fb_pc s u) as [|i lst|i idx'|i idx' r'|i r'|r'] eqn:Ep; try discriminate.
    destruct (Nat.eqb_spec idx (if (resetAfter =? 0)%Z then i else fb_active s)) as [Ei|]; [|discriminate].
    inversion He; subst; clear He. cbn [fb_set fb_pc fb_active]. split; [|exact Ha].
    destruct (Nat.eq_dec t u) as [<-|Hne].
    + rewrite setpc_eq. own t. rewrite Ep in H. eapply ok_sent; [exact H|].
      destruct H as (? & _ & _ & H & _). destruct (resetAfter =? 0)%Z; [exact H|]. apply Ha. lia.
    + rewrite setpc_neq by exact Hne. other t. exact H.
  - destruct (fb_pc s u) as [|i lst|i idx'|i idx' r'|i r'|r'] eqn:Ep; try discriminate.
    inversion He; subst; clear He. cbn [fb_set fb_pc fb_active]. split; [|exact Ha].
    destruct (Nat.eq_dec t u) as [<-|Hne].
    + rewrite setpc_eq. own t. rewrite Ep in H. apply ok_reply. exact H.
    + rewrite setpc_neq by exact Hne. other t. exact H.
  - destruct (fb_pc s u) as [|i lst|i idx'|i idx' r'|i r'|r'] eqn:Ep; try discriminate.
    destruct ((resetAfter =? 0)%Z || negb (Nat.eqb idx' (fb_active s))).
    + inversion He; subst; clear He. cbn [fb_set fb_pc fb_active]. split; [|exact Ha].
      destruct (Nat.eq_dec t u) as [<-|Hne].
      * rewrite setpc_eq. own t. rewrite Ep in H. apply ok_signalled. eapply ok_failed. exact H.
      * rewrite setpc_neq by exact Hne. other t. exact H.
    + inversion He; subst; clear He. cbn [fb_pc fb_active]. split; [|intros; apply Nat.mod_upper_bound; lia].
      destruct (Nat.eq_dec t u) as [<-|Hne].
      * rewrite setpc_eq. own t. rewrite Ep in H. eapply ok_failed. exact H.
      * rewrite setpc_neq by exact Hne. other t. exact H.
  - destruct (fb_pc s u) as [|i lst|i idx'|i idx' r'|i r'|r'] eqn:Ep; try discriminate.
    destruct (fb_token s); [discriminate|]. inversion He; subst; clear He. cbn [fb_pc fb_active]. split; [|exact Ha].
    rewrite mine_other by reflexivity.
    destruct (Nat.eq_dec t u) as [<-|Hne].
    + rewrite setpc_eq. rewrite Ep in H. apply ok_signalled. exact H.
    + rewrite setpc_neq by exact Hne. exact H.
  - destruct (fb_timer s); try discriminate. inversion He; subst; clear He. cbn [fb_pc fb_active].
    rewrite mine_other by reflexivity. split; assumption.
  - destruct (fb_timer s); try discriminate. destruct (deadline <=? fb_now s)%Z; [|discriminate].
    inversion He; subst; clear He. cbn [fb_pc fb_active].
    rewrite mine_other by reflexivity. split; [assumption|auto].
  - destruct (fb_timer s), (fb_token s); try discriminate; inversion He; subst; clear He; cbn [fb_pc fb_active];
      rewrite mine_other by reflexivity; split; assumption.
  - destruct (0 <=? d)%Z; [|discriminate]. inversion He; subst; clear He. cbn [fb_pc fb_active].
    rewrite mine_other by reflexivity. split; assumption.
Qed.

(** *** With the reset disabled every call starts at the first resolver *)
Definition order_ok (p : pc) (sent : list nat) : Prop :=
  match p with
  | Idle => sent = []
  | Ready i _ => sent = seq 0 i
  | Waiting i _ | Bad i _ _ => sent = seq 0 (S i)
  | Signalling _ _ => False
  | Returned _ => exists k, sent = seq 0 k
  end.

Lemma order_head i r sent : sent = seq 0 i -> order_ok (head n i r) sent.
Proof. intros H. unfold head. destruct (Nat.ltb i n); [exact H|exists i; exact H]. Qed.

Lemma fb_order l s t : resetAfter = 0%Z -> exec step fb_init l = Some s ->
  order_ok (fb_pc s t) (sents (mine t l)).
Proof.
  intros H0. apply (exec_inv step (fun l s => order_ok (fb_pc s t) (sents (mine t l)))); [reflexivity|].
  clear l s. intros l s e s' H He. rewrite H0 in He. cbn [Z.eqb] in He.
  assert (Hother : forall u p, t <> u -> of_call t e = false -> order_ok (setpc (fb_pc s) u p t) (sents (mine t (l ++ [e])))).
  { intros u p Hne Ho. rewrite setpc_neq by exact Hne. rewrite mine_other by exact Ho. exact H. }
  fbcases e He.
  - destruct (fb_pc s u) as [|i lst|i idx'|i idx' r'|i r'|r'] eqn:Ep; try discriminate.
    inversion He; subst; clear He. cbn [fb_set fb_pc].
    destruct (Nat.eq_dec t u) as [<-|Hne]; [|apply Hother; [exact Hne|apply Nat.eqb_neq; congruence]].
    rewrite setpc_eq. own t. rewrite Ep in H. rewrite sents_app, H. apply order_head. reflexivity.
  - destruct (fb_pc s u) as [|i lst|i idx'|i idx' r'|i r'|r'] eqn:Ep; try discriminate. cbn [Z.eqb] in He.
    destruct (Nat.eqb_spec idx i) as [->|]; [|discriminate].
    inversion He; subst; clear He. cbn [fb_set fb_pc].
    destruct (Nat.eq_dec t u) as [<-|Hne]; [|apply Hother; [exact Hne|apply Nat.eqb_neq; congruence]].
    rewrite setpc_eq. own t. rewrite Ep in H. rewrite sents_app, H. cbn [order_ok sents].
    rewrite seq_S. reflexivity.
  - destruct (fb_pc s u) as [|i lst|i idx'|i idx' r'|i r'|r'] eqn:Ep; try discriminate.
    inversion He; subst; clear He. cbn [fb_set fb_pc].
    destruct (Nat.eq_dec t u) as [<-|Hne]; [|apply Hother; [exact Hne|apply Nat.eqb_neq; congruence]].
    rewrite setpc_eq. own t. rewrite Ep in H. rewrite sents_app, H. cbn [sents]. rewrite app_nil_r.
    destruct (good r); [exists (S i); reflexivity|reflexivity].
  - destruct (fb_pc s u) as [|i lst|i idx'|i idx' r'|i r'|r'] eqn:Ep; try discriminate. cbn [Z.eqb orb] in He.
    inversion He; subst; clear He. cbn [fb_set fb_pc].
    destruct (Nat.eq_dec t u) as [<-|Hne]; [|apply Hother; [exact Hne|apply Nat.eqb_neq; congruence]].
    rewrite setpc_eq. own t. rewrite Ep in H. rewrite sents_app, H. cbn [sents]. rewrite app_nil_r.
    apply order_head. f_equal. lia.
  - destruct (fb_pc s u) as [|i lst|i idx'|i idx' r'|i r'|r'] eqn:Ep; try discriminate.
    destruct (fb_token s); [discriminate|]. inversion He; subst; clear He. cbn [fb_pc].
    destruct (Nat.eq_dec t u) as [<-|Hne]; [|apply Hother; [exact Hne|reflexivity]].
    rewrite Ep in H. destruct H.
  - destruct (fb_timer s); try discriminate. inversion He; subst; clear He. rewrite mine_other by reflexivity. exact H.
  - destruct (fb_timer s); try discriminate. destruct (deadline <=? fb_now s)%Z; [|discriminate].
    inversion He; subst; clear He. rewrite mine_other by reflexivity. exact H.
  - destruct (fb_timer s), (fb_token s); try discriminate; inversion He; subst; clear He;
      rewrite mine_other by reflexivity; exact H.
  - destruct (0 <=? d)%Z; [|discriminate]. inversion He; subst; clear He. rewrite mine_other by reflexivity. exact H.
Qed.

(** *** A resolver that always answers is found, unless a reset interferes *)
Section Good.
Variable g : nat.
Hypothesis Hg : g < n.

Lemma fb_linked_step l s e s' : linked g l (fb_pc s) -> fb_active s < n -> always_good good g (l ++ [e]) ->
  step s e = Some s' -> linked g (l ++ [e]) (fb_pc s') /\ fb_active s' < n /\
  (e <> TimerFire -> fb_active s' = fb_active s \/ (fb_active s <> g /\ fb_active s' = (fb_active s + 1) mod n)).
Proof.
  intros Hl Ha Hgood He. fbcases e He.
  - destruct (fb_pc s u) as [|i lst|i idx'|i idx' r'|i r'|r'] eqn:Ep; try discriminate.
    inversion He; subst; clear He. cbn [fb_set fb_pc fb_active]. split; [|split; [exact Ha|left; reflexivity]].
    apply linked_set; [exact Hl|reflexivity|]. pose proof (head_linked g n 0 Drop) as Hh. destruct (head n 0 Drop); tauto.
  - destruct (fb_pc s u) as [|i lst|i idx'|i idx' r'|i r'|r'] eqn:Ep; try discriminate.
    destruct (Nat.eqb_spec idx (if (resetAfter =? 0)%Z then i else fb_active s)) as [_|]; [|discriminate].
    inversion He; subst; clear He. cbn [fb_set fb_pc fb_active]. split; [|split; [exact Ha|left; reflexivity]].
    apply linked_set; [exact Hl| |].
    + intros v Hv. cbn [last_sent]. destruct (Nat.eqb_spec u v); [congruence|reflexivity].
    + cbn [last_sent]. rewrite Nat.eqb_refl. reflexivity.
  - pose proof (Hl u) as Hu. destruct (fb_pc s u) as [|i lst|i idx'|i idx' r'|i r'|r'] eqn:Ep; try discriminate.
    inversion He; subst; clear He. cbn [fb_set fb_pc fb_active]. split; [|split; [exact Ha|left; reflexivity]].
    apply linked_set; [exact Hl|reflexivity|]. destruct (good r) eqn:Eg; [exact I|].
    intros ->. pose proof (always_good_last _ _ _ _ _ Hgood Hu). congruence.
  - pose proof (Hl u) as Hu. destruct (fb_pc s u) as [|i lst|i idx'|i idx' r'|i r'|r'] eqn:Ep; try discriminate.
    destruct (resetAfter =? 0)%Z; cbn [orb] in He.
    + inversion He; subst; clear He. cbn [fb_set fb_pc fb_active]. split; [|split; [exact Ha|left; reflexivity]].
      apply linked_set; [exact Hl|reflexivity|]. pose proof (head_linked g n (i + 1) r') as Hh. destruct (head n (i + 1) r'); tauto.
    + destruct (Nat.eqb_spec idx' (fb_active s)) as [->|Hne]; cbn [negb] in He.
      * inversion He; subst; clear He. cbn [fb_pc fb_active].
        split; [|split; [apply Nat.mod_upper_bound; lia|intros _; right; split; [exact Hu|reflexivity]]].
        apply linked_set; [exact Hl|reflexivity|exact I].
      * inversion He; subst; clear He. cbn [fb_set fb_pc fb_active]. split; [|split; [exact Ha|left; reflexivity]].
        apply linked_set; [exact Hl|reflexivity|]. pose proof (head_linked g n (i + 1) r') as Hh. destruct (head n (i + 1) r'); tauto.
  - destruct (fb_pc s u) as [|i lst|i idx'|i idx' r'|i r'|r'] eqn:Ep; try discriminate.
    destruct (fb_token s); [discriminate|]. inversion He; subst; clear He. cbn [fb_pc fb_active].
    split; [|split; [exact Ha|left; reflexivity]].
    apply linked_set; [exact Hl|reflexivity|]. pose proof (head_linked g n (i + 1) r') as Hh. destruct (head n (i + 1) r'); tauto.
  - destruct (fb_timer s); try discriminate. inversion He; subst; clear He. cbn [fb_pc fb_active].
    split; [|split; [exact Ha|left; reflexivity]]. apply linked_same; [exact Hl|reflexivity].
  - destruct (fb_timer s); try discriminate. destruct (deadline <=? fb_now s)%Z; [|discriminate].
    inversion He; subst; clear He. cbn [fb_pc fb_active].
    split; [|split; [lia|intros H; contradiction H; reflexivity]]. apply linked_same; [exact Hl|reflexivity].
  - destruct (fb_timer s), (fb_token s); try discriminate; inversion He; subst; clear He; cbn [fb_pc fb_active];
      (split; [|split; [exact Ha|left; reflexivity]]; apply linked_same; [exact Hl|reflexivity]).
  - destruct (0 <=? d)%Z; [|discriminate]. inversion He; subst; clear He. cbn [fb_pc fb_active].
    split; [|split; [exact Ha|left; reflexivity]]. apply linked_same; [exact Hl|reflexivity].
Qed.

Lemma fb_step_pc s e s' t : of_call t e = false -> e <> Signal t -> step s e = Some s' -> fb_pc s' t = fb_pc s t.
Proof.
  intros Ho Hs He. fbcases e He; cbn [of_call] in Ho; try apply Nat.eqb_neq in Ho.
  - destruct (fb_pc s u) eqn:Ep; try discriminate. inversion He; subst. cbn. apply setpc_neq. congruence.
  - destruct (fb_pc s u) eqn:Ep; try discriminate. destruct (Nat.eqb _ _); [|discriminate].
    inversion He; subst. apply setpc_neq. congruence.
  - destruct (fb_pc s u) eqn:Ep; try discriminate. inversion He; subst. apply setpc_neq. congruence.
  - destruct (fb_pc s u) eqn:Ep; try discriminate. destruct (_ || _); inversion He; subst; apply setpc_neq; congruence.
  - destruct (fb_pc s u) eqn:Ep; try discriminate. destruct (fb_token s); [discriminate|].
    inversion He; subst. apply setpc_neq. congruence.
  - destruct (fb_timer s); try discriminate. inversion He; reflexivity.
  - destruct (fb_timer s); try discriminate. destruct (_ <=? _)%Z; [|discriminate]. inversion He; reflexivity.
  - destruct (fb_timer s), (fb_token s); try discriminate; inversion He; reflexivity.
  - destruct (_ <=? _)%Z; [|discriminate]. inversion He; reflexivity.
Qed.

Definition near_start (s : fb) (t : nat) : Prop :=
  near n g good (fb_active s) (fb_pc s t).

Lemma fb_near_step l s e s' t : resetAfter <> 0%Z -> linked g l (fb_pc s) -> fb_active s < n ->
  always_good good g (l ++ [e]) -> e <> TimerFire -> near n g good (fb_active s) (fb_pc s t) ->
  step s e = Some s' -> near n g good (fb_active s') (fb_pc s' t).
Proof.
  intros Hz Hl Ha Hgood Ht Hd He. apply Z.eqb_neq in Hz.
  assert (Hdec : of_call t e = true \/ e = Signal t \/ (of_call t e = false /\ e <> Signal t)).
  { destruct (of_call t e) eqn:E; [left; reflexivity|right].
    destruct e; try (right; split; [reflexivity|discriminate]).
    destruct (Nat.eq_dec t0 t) as [->|Hne]; [left; reflexivity|right; split; [reflexivity|congruence]]. }
  destruct Hdec as [Eo|[->|[Eo Es]]].
  - pose proof (Hl t) as Hu. fbcases e He; cbn [of_call] in Eo; try discriminate; apply Nat.eqb_eq in Eo; subst u;
      destruct (fb_pc s t) as [|i lst|i idx'|i idx' r'|i r'|r'] eqn:Ep; try discriminate.
    + cbn in Hd. contradiction.
    + rewrite Hz in He. destruct (Nat.eqb_spec idx (fb_active s)) as [->|]; [|discriminate].
      inversion He; subst; clear He. cbn [fb_set fb_pc fb_active]. rewrite setpc_eq. eapply near_sent; eassumption.
    + inversion He; subst; clear He. cbn [fb_set fb_pc fb_active]. rewrite setpc_eq. apply near_reply. exact Hd.
    + rewrite Hz in He. cbn [orb] in He. destruct (Nat.eqb_spec idx' (fb_active s)) as [->|Hne]; cbn [negb] in He;
        inversion He; subst; clear He; cbn [fb_set fb_pc fb_active]; rewrite setpc_eq.
      * apply near_fail_active; assumption.
      * apply near_signalled; [exact Hg|]. eapply near_fail_old; eassumption.
  - cbn [fb_step] in He. destruct (fb_pc s t) as [|i lst|i idx'|i idx' r'|i r'|r'] eqn:Ep; try discriminate.
    destruct (fb_token s); [discriminate|]. inversion He; subst; clear He. cbn [fb_pc fb_active]. rewrite setpc_eq.
    apply near_signalled; [exact Hg|]. exact Hd.
  - rewrite (fb_step_pc s e s' t Eo Es He).
    destruct (fb_linked_step l s e s' Hl Ha Hgood He) as (_ & _ & Hm). destruct (Hm Ht) as [->|[Hne ->]]; [exact Hd|].
    apply near_move; assumption.
Qed.

Lemma fb_linked l s : exec step fb_init l = Some s -> always_good good g l -> linked g l (fb_pc s) /\ fb_active s < n.
Proof.
  apply (exec_inv step (fun l s => always_good good g l -> linked g l (fb_pc s) /\ fb_active s < n)).
  - intros _. split; [intros u; exact I|cbn; lia].
  - clear l s. intros l s e s' IH He Hgood. destruct (IH (always_good_prefix _ _ _ _ Hgood)) as [H1 H2].
    destruct (fb_linked_step l s e s' H1 H2 Hgood He) as (H3 & H4 & _). split; assumption.
Qed.

Lemma fb_near_run l1 s1 t : resetAfter <> 0%Z -> linked g l1 (fb_pc s1) -> fb_active s1 < n ->
  near n g good (fb_active s1) (fb_pc s1 t) ->
  forall l2 s, exec step s1 l2 = Some s -> always_good good g (l1 ++ l2) -> ~ In TimerFire l2 ->
  linked g (l1 ++ l2) (fb_pc s) /\ fb_active s < n /\ near n g good (fb_active s) (fb_pc s t).
Proof.
  intros Hz Hl Ha Hd. apply (exec_inv step (fun l2 s => always_good good g (l1 ++ l2) -> ~ In TimerFire l2 ->
    linked g (l1 ++ l2) (fb_pc s) /\ fb_active s < n /\ near n g good (fb_active s) (fb_pc s t))).
  - intros _ _. rewrite app_nil_r. auto.
  - intros l s e s' IH He Hgood Ht. rewrite app_assoc in Hgood.
    destruct (IH (always_good_prefix _ _ _ _ Hgood)) as (H1 & H2 & H3).
    { intros Hi. apply Ht, in_or_app. left. exact Hi. }
    assert (Hne : e <> TimerFire) by (intros ->; apply Ht, in_or_app; right; left; reflexivity).
    rewrite app_assoc. destruct (fb_linked_step (l1 ++ l) s e s' H1 H2 Hgood He) as (H4 & H5 & _).
    split; [exact H4|]. split; [exact H5|]. exact (fb_near_step (l1 ++ l) s e s' t Hz H1 H2 Hgood Hne H3 He).
Qed.

Lemma fb_good_answer l1 l2 s t r : resetAfter <> 0%Z -> exec step fb_init (l1 ++ Call t :: l2) = Some s ->
  always_good good g (l1 ++ Call t :: l2) -> ~ In TimerFire l2 -> fb_pc s t = Returned r -> good r = true.
Proof.
  intros Hz H Hgood Ht Hr. change (Call t :: l2) with ([Call t] ++ l2) in *. rewrite app_assoc in H, Hgood.
  rewrite exec_app in H. destruct (exec step fb_init (l1 ++ [Call t])) as [s1|] eqn:E1; [|discriminate].
  destruct (fb_linked _ _ E1 (always_good_prefix _ _ _ _ Hgood)) as [Hl Ha].
  assert (Hd : near n g good (fb_active s1) (fb_pc s1 t)).
  { rewrite exec_app in E1. destruct (exec step fb_init l1) as [s0|]; [|discriminate].
    cbn [exec fb_step] in E1. destruct (fb_pc s0 t); try discriminate. inversion E1; subst; clear E1.
    cbn [fb_set fb_pc fb_active] in *. rewrite setpc_eq. apply near_head; [exact Hg|]. cbn [plus]. apply dist_lt; assumption. }
  destruct (fb_near_run _ s1 t Hz Hl Ha Hd l2 s H Hgood Ht) as (_ & _ & Hn).
  rewrite Hr in Hn. exact Hn.
Qed.

(** with the reset disabled *)
Definition before (p : pc) : Prop :=
  match p with
  | Idle => True
  | Ready i _ => i <= g
  | Waiting i idx => idx = i /\ i <= g
  | Bad i idx _ => idx = i /\ i < g
  | Signalling _ _ => False
  | Returned r => good r = true
  end.

Lemma fb_before l s t : resetAfter = 0%Z -> exec step fb_init l = Some s -> always_good good g l ->
  (linked g l (fb_pc s) /\ fb_active s < n) /\ before (fb_pc s t).
Proof.
  intros H0. apply (exec_inv step (fun l s => always_good good g l -> (linked g l (fb_pc s) /\ fb_active s < n) /\ before (fb_pc s t))).
  - intros _. split; [|exact I]. split; [intros u; exact I|cbn; lia].
  - clear l s. intros l s e s' IH He Hgood.
    destruct (IH (always_good_prefix _ _ _ _ Hgood)) as [[H1 H2] H3].
    destruct (fb_linked_step l s e s' H1 H2 Hgood He) as (H4 & H5 & _). split; [split; assumption|].
    assert (Hh : forall i r, i <= g -> before (head n i r)).
    { intros i r Hi. unfold head. destruct (Nat.ltb_spec i n); [exact Hi|lia]. }
    assert (Hdec : of_call t e = true \/ e = Signal t \/ (of_call t e = false /\ e <> Signal t)).
    { destruct (of_call t e) eqn:E; [left; reflexivity|right].
      destruct e; try (right; split; [reflexivity|discriminate]).
      destruct (Nat.eq_dec t0 t) as [->|Hne]; [left; reflexivity|right; split; [reflexivity|congruence]]. }
    destruct Hdec as [Eo|[->|[Eo Es]]].
    + pose proof (H1 t) as Hu. rewrite H0 in He.
      fbcases e He; cbn [of_call] in Eo; try discriminate; apply Nat.eqb_eq in Eo; subst u;
        destruct (fb_pc s t) as [|i lst|i idx'|i idx' r'|i r'|r'] eqn:Ep; try discriminate; cbn [Z.eqb orb] in He.
      * inversion He; subst; clear He. cbn [fb_set fb_pc]. rewrite setpc_eq. apply Hh. lia.
      * destruct (Nat.eqb_spec idx i) as [->|]; [|discriminate]. inversion He; subst; clear He.
        cbn [fb_set fb_pc]. rewrite setpc_eq. split; [reflexivity|exact H3].
      * inversion He; subst; clear He. cbn [fb_set fb_pc] in *. rewrite setpc_eq.
        specialize (H4 t). rewrite setpc_eq in H4. destruct (good r) eqn:Eg; [exact Eg|].
        destruct H3 as [-> H3]. split; [reflexivity|lia].
      * inversion He; subst; clear He. cbn [fb_set fb_pc]. rewrite setpc_eq. apply Hh. destruct H3; lia.
    + cbn [fb_step] in He. destruct (fb_pc s t); try discriminate. destruct H3.
    + rewrite (fb_step_pc s e s' t Eo Es He). exact H3.
Qed.
End Good.

(** *** The timer *)
Definition signalling (s : fb) : Prop := exists t i r, fb_pc s t = Signalling i r.
Definition timer_ok (s : fb) : Prop :=
  match fb_timer s with
  | NoTimer => fb_active s = 0 /\ fb_token s = false /\ ~ signalling s
  | Starting => True
  | Armed d => (d <= fb_now s + resetAfter)%Z
  | Waitfail => fb_active s = 0 \/ fb_token s = true \/ signalling s
  end.

Lemma head_not_signalling i r i' r' : head n i r <> Signalling i' r'.
Proof. unfold head. destruct (Nat.ltb i n); discriminate. Qed.

Lemma timer_ok_set s u p : (forall i r, fb_pc s u <> Signalling i r) -> (forall i r, p <> Signalling i r) ->
  timer_ok s -> timer_ok (fb_set s u p).
Proof.
  intros H1 H2 H.
  assert (Hiff : signalling (fb_set s u p) <-> signalling s).
  { unfold signalling, fb_set. cbn [fb_pc]. split; intros (t & i & r & E).
    - destruct (Nat.eq_dec t u) as [->|Hne]; [rewrite setpc_eq in E; exfalso; exact (H2 _ _ E)|].
      rewrite setpc_neq in E by exact Hne. exists t, i, r. exact E.
    - exists t, i, r. rewrite setpc_neq; [exact E|]. intros ->. exact (H1 _ _ E). }
  unfold timer_ok in *. cbn [fb_set fb_timer fb_active fb_token fb_now] in *. destruct (fb_timer s); try exact H.
  - rewrite Hiff. exact H.
  - rewrite Hiff. exact H.
Qed.

Lemma fb_timer_ok l s : exec step fb_init l = Some s -> timer_ok s.
Proof.
  apply (exec_inv step (fun l s => timer_ok s)).
  - unfold timer_ok; cbn. split; [reflexivity|]. split; [reflexivity|]. intros (t & i & r & H). discriminate.
  - clear l s. intros l s e s' H He. fbcases e He.
    + destruct (fb_pc s u) as [|i lst|i idx'|i idx' r'|i r'|r'] eqn:Ep; try discriminate. inversion He; subst; clear He.
      apply timer_ok_set; [rewrite Ep; discriminate|intros; apply head_not_signalling|exact H].
    + destruct (fb_pc s u) as [|i lst|i idx'|i idx' r'|i r'|r'] eqn:Ep; try discriminate.
      destruct (Nat.eqb _ _); [|discriminate]. inversion He; subst; clear He.
      apply timer_ok_set; [rewrite Ep; discriminate|discriminate|exact H].
    + destruct (fb_pc s u) as [|i lst|i idx'|i idx' r'|i r'|r'] eqn:Ep; try discriminate. inversion He; subst; clear He.
      apply timer_ok_set; [rewrite Ep; discriminate|destruct (good r); discriminate|exact H].
    + destruct (fb_pc s u) as [|i lst|i idx'|i idx' r'|i r'|r'] eqn:Ep; try discriminate.
      destruct (_ || _); inversion He; subst; clear He.
      * apply timer_ok_set; [rewrite Ep; discriminate|intros; apply head_not_signalling|exact H].
      * unfold timer_ok in *. cbn [fb_timer fb_active fb_token fb_now] in *.
        destruct (fb_timer s); try exact I; try exact H.
        right. right. exists u, i, r'. cbn. apply setpc_eq.
    + destruct (fb_pc s u) as [|i lst|i idx'|i idx' r'|i r'|r'] eqn:Ep; try discriminate.
      destruct (fb_token s) eqn:Et; [discriminate|]. inversion He; subst; clear He.
      unfold timer_ok in *. cbn [fb_timer fb_active fb_token fb_now] in *.
      destruct (fb_timer s); try exact I; try exact H.
      * destruct H as (_ & _ & H). exfalso. apply H. exists u, i, r'. exact Ep.
      * right. left. reflexivity.
    + destruct (fb_timer s); try discriminate. inversion He; subst; clear He. unfold timer_ok. cbn. lia.
    + destruct (fb_timer s); try discriminate. destruct (deadline <=? fb_now s)%Z; [|discriminate].
      inversion He; subst; clear He. left. reflexivity.
    + destruct (fb_timer s), (fb_token s); try discriminate; inversion He; subst; clear He; unfold timer_ok; cbn; lia.
    + destruct (Z.leb_spec 0 d); [|discriminate]. inversion He; subst; clear He.
      unfold timer_ok in *. cbn [fb_timer fb_active fb_token fb_now] in *.
      destruct (fb_timer s); try exact H. lia.
Qed.

(** Once nobody is busy reporting a failure, the first resolver is active or will be within the
    reset period, if nothing else happens. *)
Lemma fb_returns l s : (0 <= resetAfter)%Z -> exec step fb_init l = Some s -> fb_active s <> 0 ->
  ~ signalling s -> fb_token s = false -> fb_timer s <> Starting ->
  exists d s', (0 <= d <= resetAfter)%Z /\ exec step s [Pass d; TimerFire] = Some s' /\ fb_active s' = 0.
Proof.
  intros Hr H Ha Hs Ht Hst. pose proof (fb_timer_ok l s H) as Hk. unfold timer_ok in Hk.
  destruct (fb_timer s) as [| |d|] eqn:Etm; [tauto|congruence| |].
  2: { destruct Hk as [Hk|[Hk|Hk]]; [contradiction|congruence|contradiction]. }
  exists (Z.max 0 (d - fb_now s)). eexists. split; [lia|].
  cbn [exec fb_step]. destruct (Z.leb_spec 0 (Z.max 0 (d - fb_now s))); [|lia].
  cbn [fb_timer fb_now]. rewrite Etm. destruct (Z.leb_spec d (fb_now s + Z.max 0 (d - fb_now s))); [|lia].
  split; reflexivity.
Qed.

Lemma fb_now_elapsed l : forall s s', exec step s l = Some s' -> fb_now s' = (fb_now s + elapsed l)%Z.
Proof.
  induction l as [|e l IH]; intros s s' H; [inversion H; subst; cbn; lia|].
  cbn [exec] in H. destruct (step s e) as [s1|] eqn:E; [|discriminate]. rewrite (IH s1 s' H).
  fbcases e E; cbn [elapsed].
  - destruct (fb_pc s u); try discriminate. inversion E; reflexivity.
  - destruct (fb_pc s u); try discriminate. destruct (Nat.eqb _ _); [|discriminate]. inversion E; reflexivity.
  - destruct (fb_pc s u); try discriminate. inversion E; reflexivity.
  - destruct (fb_pc s u); try discriminate. destruct (_ || _); inversion E; reflexivity.
  - destruct (fb_pc s u); try discriminate. destruct (fb_token s); [discriminate|]. inversion E; reflexivity.
  - destruct (fb_timer s); try discriminate. inversion E; reflexivity.
  - destruct (fb_timer s); try discriminate. destruct (_ <=? _)%Z; [|discriminate]. inversion E; reflexivity.
  - destruct (fb_timer s), (fb_token s); try discriminate; inversion E; reflexivity.
  - destruct (_ <=? _)%Z; [|discriminate]. inversion E; subst. cbn. lia.
Qed.

(** The reset does not come early: a whole reset period passes after the timer was started or the
    last failure was taken note of. *)
Lemma fb_armed_stays l : forall s s' dl, fb_timer s = Armed dl \/ fb_timer s = Waitfail -> ~ In Consume l ->
  exec step s l = Some s' -> fb_timer s' = Armed dl \/ fb_timer s' = Waitfail.
Proof.
  induction l as [|e l IH]; intros s s' dl Hd Hc H; [inversion H; subst; exact Hd|].
  cbn [exec] in H. destruct (step s e) as [s1|] eqn:E; [|discriminate].
  apply (IH s1 s' dl); [|intros Hi; apply Hc; right; exact Hi|exact H].
  fbcases e E.
  - destruct (fb_pc s u); try discriminate. inversion E; exact Hd.
  - destruct (fb_pc s u); try discriminate. destruct (Nat.eqb _ _); [|discriminate]. inversion E; exact Hd.
  - destruct (fb_pc s u); try discriminate. inversion E; exact Hd.
  - destruct (fb_pc s u); try discriminate. destruct (_ || _); inversion E; subst; cbn [fb_set fb_timer]; [exact Hd|].
    destruct Hd as [-> | ->]; [left|right]; reflexivity.
  - destruct (fb_pc s u); try discriminate. destruct (fb_token s); [discriminate|]. inversion E; exact Hd.
  - destruct Hd as [Hd|Hd]; rewrite Hd in E; discriminate.
  - destruct (fb_timer s) eqn:Et; try discriminate. destruct (_ <=? _)%Z; [|discriminate]. inversion E; right; reflexivity.
  - exfalso. apply Hc. left. reflexivity.
  - destruct (_ <=? _)%Z; [|discriminate]. inversion E; exact Hd.
Qed.

Lemma fb_not_early l1 e l2 s : e = Consume \/ e = TimerStart -> ~ In Consume l2 ->
  exec step fb_init (l1 ++ e :: l2 ++ [TimerFire]) = Some s -> (resetAfter <= elapsed l2)%Z.
Proof.
  intros He Hc H. rewrite exec_app in H. destruct (exec step fb_init l1) as [s0|]; [|discriminate].
  cbn [exec] in H. destruct (step s0 e) as [s1|] eqn:E; [|discriminate].
  rewrite exec_app in H. destruct (exec step s1 l2) as [s2|] eqn:E2; [|discriminate].
  assert (Hd : fb_timer s1 = Armed (fb_now s1 + resetAfter)).
  { destruct He as [-> | ->]; cbn [fb_step] in E.
    - destruct (fb_timer s0), (fb_token s0); try discriminate; inversion E; reflexivity.
    - destruct (fb_timer s0); try discriminate. inversion E; reflexivity. }
  pose proof (fb_armed_stays l2 s1 s2 _ (or_introl Hd) Hc E2) as Hs.
  pose proof (fb_now_elapsed l2 s1 s2 E2) as Hn. cbn [exec fb_step] in H.
  destruct Hs as [Hs|Hs]; rewrite Hs in H; [|discriminate].
  destruct (Z.leb_spec (fb_now s1 + resetAfter) (fb_now s2)); [lia|discriminate].
Qed.

Lemma fb_stays s l s' : exec step s l = Some s' -> failures l = [] -> ~ In TimerFire l -> fb_active s' = fb_active s.
Proof.
  revert s. induction l as [|e l IH]; intros s H Hf Ht; [inversion H; reflexivity|].
  cbn [exec] in H. destruct (step s e) as [s1|] eqn:E; [|discriminate].
  transitivity (fb_active s1).
  - apply IH; [exact H| |intros Hi; apply Ht; right; exact Hi].
    destruct e; cbn [failures] in Hf; try discriminate; exact Hf.
  - fbcases e E; cbn [failures] in Hf; try discriminate.
    + destruct (fb_pc s u); try discriminate. inversion E; reflexivity.
    + destruct (fb_pc s u); try discriminate. destruct (Nat.eqb _ _); [|discriminate]. inversion E; reflexivity.
    + destruct (fb_pc s u); try discriminate. inversion E; reflexivity.
    + destruct (fb_pc s u); try discriminate. destruct (fb_token s); [discriminate|]. inversion E; reflexivity.
    + destruct (fb_timer s); try discriminate. inversion E; reflexivity.
    + exfalso. apply Ht. left. reflexivity.
    + destruct (fb_timer s), (fb_token s); try discriminate; inversion E; reflexivity.
    + destruct (_ <=? _)%Z; [|discriminate]. inversion E; reflexivity.
Qed.
End FB.
