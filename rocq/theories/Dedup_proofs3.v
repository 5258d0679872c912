(** Request de-duplication: the statements. *)
From Verif Require Import Base Bytes Net Dns Cidr_spec Net_spec Dedup_model Dedup_spec Dedup_proofs Dedup_proofs2.
From Coq Require Import ZifyBool ZifyNat ZifyN.
Local Open Scope nat_scope.

(** All queries have proper subnets. *)
Definition subnets_ok (tr : trace) : Prop := forall t q o, In (DEnter t q, o) tr -> subnet_ok q.

Lemma own_personal q r : personal q r (own_copy q r).
Proof. destruct r as [a| |e]; cbn [own_copy]; [|apply personal_drop|apply personal_err]. apply personal_ans; reflexivity. Qed.

Ltac in_cases H := repeat match type of H with
  | In _ (_ :: _) => destruct H as [H|H]
  | In _ [] => destruct H
  end.

Lemma asked_thread s tr t q : dinv s tr -> asked tr t q ->
  d_thread s t = DLead q \/ (exists r, d_thread s t = DClosed q r) \/
  (exists r r0, d_thread s t = DReturned q r /\ evs tr t = [(DEnter t q, OAsk q); (DReply t r0, ONone); (DRemove t, OReturn r)]).
Proof.
  intros (HT & _) A. unfold asked in A. apply in_evs in A. cbn [tid] in A. specialize (HT t). unfold tinv in HT.
  destruct (d_thread s t) as [|q1|q1 r1|q1 l|q1 r1].
  - rewrite HT in A. destruct A.
  - destruct HT as [E _]. rewrite E in A. in_cases A. injection A as <-. left. reflexivity.
  - destruct HT as [E _]. rewrite E in A. in_cases A; [|discriminate A]. injection A as <-. right. left. exists r1. reflexivity.
  - destruct HT as [E _]. rewrite E in A. in_cases A. discriminate A.
  - destruct HT as [(r0 & E & _)|(l & r0 & E & _)]; rewrite E in A; in_cases A; try discriminate A. injection A as <-.
    right. right. exists r1, r0. split; [reflexivity|exact E].
Qed.

Lemma lead_thread s tr t q : dinv s tr -> in_progress tr t q -> d_thread s t = DLead q \/ exists r, d_thread s t = DClosed q r.
Proof.
  intros H [A N]. destruct (asked_thread s tr t q H A) as [E|[E|(r & r0 & E & E2)]]; [left; exact E|right; exact E|].
  exfalso. apply (N r). exists (DRemove t). split; [left; reflexivity|]. apply in_evs. cbn [tid]. rewrite E2. right. right. left. reflexivity.
Qed.
Lemma upstream_progress s tr t q : dinv s tr -> upstream tr t q -> in_progress tr t q /\ d_thread s t = DLead q.
Proof.
  intros H [A N]. destruct (asked_thread s tr t q H A) as [E|[(r & E)|(r & r0 & E & E2)]].
  - split; [|exact E]. destruct H as (HT & _). specialize (HT t). unfold tinv in HT. rewrite E in HT. apply progress_evs. left. apply HT.
  - exfalso. destruct H as (HT & _). specialize (HT t). unfold tinv in HT. rewrite E in HT. destruct HT as [E2 _].
    apply (N r). exists ONone. apply in_evs. cbn [tid]. rewrite E2. right. left. reflexivity.
  - exfalso. apply (N r0). exists ONone. apply in_evs. cbn [tid]. rewrite E2. right. left. reflexivity.
Qed.
Lemma lead_inflight s tr t q : dinv s tr -> in_progress tr t q -> exists k, dedup_key q = Some k /\ d_inflight s k = Some t.
Proof.
  intros H P. assert (L := lead_thread s tr t q H P). destruct H as (HT & _). specialize (HT t). unfold tinv in HT.
  destruct L as [L|[r L]]; rewrite L in HT; [apply HT|destruct HT as (_ & _ & HT); exact HT].
Qed.

Theorem one_leader l s tr t q t' q' : dedup_exec dedup_init l = Some (s, tr) -> subnets_ok tr ->
  in_progress tr t q -> in_progress tr t' q' -> same_question q q' -> t = t'.
Proof.
  intros E O P P' S. apply exec_init in E. assert (Oq := O _ _ _ (proj1 P)). assert (Oq' := O _ _ _ (proj1 P')).
  destruct (lead_inflight s tr t q E P) as (k & K & I). destruct (lead_inflight s tr t' q' E P') as (k' & K' & I').
  apply (key_same q q' Oq Oq') in S. destruct S as (k0 & K0 & K0'). congruence.
Qed.

Theorem one_upstream l s tr t q t' q' : dedup_exec dedup_init l = Some (s, tr) -> subnets_ok tr ->
  upstream tr t q -> upstream tr t' q' -> same_question q q' -> t = t'.
Proof.
  intros E O P P' S. assert (E' := exec_init _ _ _ E). apply (one_leader l s tr t q t' q' E O); [| |exact S]; apply (upstream_progress s); assumption.
Qed.

(** Splitting executions *)
Lemma exec_split l : forall s s' tr1 e o tr2, dedup_exec s l = Some (s', tr1 ++ (e, o) :: tr2) ->
  exists l1 s1 s2, dedup_exec s l1 = Some (s1, tr1) /\ dedup_step s1 e = Some (s2, o).
Proof.
  induction l as [|e0 l IH]; intros s s' tr1 e o tr2 E; cbn [dedup_exec] in E; [injection E as _ E; destruct tr1; discriminate E|].
  destruct (dedup_step s e0) as [[s1 o1]|] eqn:E1; [|discriminate E]. destruct (dedup_exec s1 l) as [[s2 tr3]|] eqn:E2; [|discriminate E].
  injection E as <- E. destruct tr1 as [|x tr1]; cbn [app] in E.
  - injection E as <- <- _. exists [], s, s1. split; [reflexivity|exact E1].
  - injection E as <- ->. destruct (IH s1 s2 tr1 e o tr2 E2) as (l1 & s3 & s4 & X & Y). exists (e0 :: l1), s3, s4.
    cbn [dedup_exec]. rewrite E1, X. split; [reflexivity|exact Y].
Qed.

(** A call asks upstream exactly when no call for the same question is in progress. *)
Theorem asks_iff l s tr1 t q o tr2 : dedup_exec dedup_init l = Some (s, tr1 ++ (DEnter t q, o) :: tr2) ->
  subnets_ok (tr1 ++ (DEnter t q, o) :: tr2) ->
  (o = ONone <-> exists t' q', in_progress tr1 t' q' /\ same_question q q') /\ (o = ONone \/ o = OAsk q).
Proof.
  intros E O. assert (Oq : subnet_ok q) by (apply (O t q o); apply in_or_app; right; left; reflexivity).
  destruct (exec_split _ _ _ _ _ _ _ E) as (l1 & s1 & s2 & X & Y). apply exec_init in X. cbn [dedup_step] in Y.
  destruct (d_thread s1 t) eqn:Et; try discriminate Y. destruct (dedup_key q) as [k|] eqn:Ek; [|discriminate Y].
  destruct (d_inflight s1 k) as [l0|] eqn:Ei; injection Y as _ <-.
  - split; [|left; reflexivity]. split; [|reflexivity]. intros _. destruct X as (HT & HI & HA). destruct (HI k l0 Ei) as (ql & Kl & Tl).
    assert (P : in_progress tr1 l0 ql).
    { specialize (HT l0). unfold tinv in HT. apply progress_evs. destruct Tl as [Tl|[r Tl]]; rewrite Tl in HT; [left; apply HT|right; exists r; apply HT]. }
    exists l0, ql. split; [exact P|]. apply key_same; [exact Oq|apply (O l0 ql (OAsk ql)); apply in_or_app; left; apply P|]. exists k. split; assumption.
  - split; [|right; reflexivity]. split; [discriminate|]. intros (t' & q' & P & S). exfalso.
    destruct (lead_inflight s1 tr1 t' q' X P) as (k' & K' & I').
    assert (Oq' : subnet_ok q') by (apply (O t' q' (OAsk q')); apply in_or_app; left; apply P).
    apply (key_same q q' Oq Oq') in S. destruct S as (k0 & K0 & K0'). congruence.
Qed.

(** What a call returns *)
Theorem outcome l s tr t r : dedup_exec dedup_init l = Some (s, tr) -> subnets_ok tr -> returned tr t r ->
  exists q, began tr t q /\
  ((asked tr t q /\ exists r0, replied tr t r0 /\ personal q r0 r) \/
   (exists t' q' r0 tr1 tr2, tr = tr1 ++ (DEnter t q, ONone) :: tr2 /\ in_progress tr1 t' q' /\ same_question q q' /\ replied tr t' r0 /\ personal q r0 r)).
Proof.
  intros E O (e & He & Hin). apply exec_init in E. destruct E as (HT & HI & HA).
  assert (T : tid e = t) by (destruct He as [->| ->]; reflexivity). apply in_evs in Hin. rewrite T in Hin.
  specialize (HT t). unfold tinv in HT. destruct (d_thread s t) as [|q1|q1 r1|q1 l1|q1 r1].
  - rewrite HT in Hin. destruct Hin.
  - destruct HT as [X _]. rewrite X in Hin. in_cases Hin. discriminate Hin.
  - destruct HT as [X _]. rewrite X in Hin. in_cases Hin; discriminate Hin.
  - destruct HT as [X _]. rewrite X in Hin. in_cases Hin; discriminate Hin.
  - exists q1. destruct HT as [(r0 & X & ->)|(l0 & r0 & X & -> & A & F)]; rewrite X in Hin; in_cases Hin; try discriminate Hin; injection Hin as _ <-.
    + assert (B : asked tr t q1) by (unfold asked; apply in_evs; cbn [tid]; rewrite X; left; reflexivity).
      split; [exists (OAsk q1); exact B|]. left. split; [exact B|]. exists r0. split; [|apply own_personal].
      exists ONone. apply in_evs. cbn [tid]. rewrite X. right. left. reflexivity.
    + destruct F as (tr1 & tr2 & ql & k & Etr & P & K & K' & _).
      assert (B : In (DEnter t q1, ONone) tr) by (rewrite Etr; apply in_or_app; right; left; reflexivity).
      split; [exists ONone; exact B|]. right. exists l0, ql, r0, tr1, tr2. split; [exact Etr|]. split; [exact P|].
      split; [|split; [apply HA, A|apply own_personal]].
      apply key_same; [apply (O _ _ _ B)|apply (O l0 ql (OAsk ql)); rewrite Etr; apply in_or_app; left; apply P|]. exists k. split; assumption.
Qed.

(** A call that has begun and not returned can return now, or waits for an upstream query for its question. *)
Theorem progress l s tr t q : dedup_exec dedup_init l = Some (s, tr) -> subnets_ok tr -> began tr t q ->
  (exists r, returned tr t r) \/
  (exists e s' r, (e = DRemove t \/ e = DWake t) /\ dedup_step s e = Some (s', OReturn r)) \/
  (exists t' q', upstream tr t' q' /\ (q' = q /\ t' = t \/ same_question q q')).
Proof.
  intros E O (o & B). apply exec_init in E. assert (E0 := E). destruct E as (HT & HI & HA). assert (Oq := O _ _ _ B).
  apply in_evs in B. cbn [tid] in B. assert (HTt := HT t). unfold tinv in HTt.
  assert (UP : forall t' q', d_thread s t' = DLead q' -> upstream tr t' q').
  { intros t' q' L. specialize (HT t'). unfold tinv in HT. rewrite L in HT. destruct HT as [X _]. split.
    - unfold asked. apply in_evs. cbn [tid]. rewrite X. left. reflexivity.
    - intros r (o' & Hr). apply in_evs in Hr. cbn [tid] in Hr. rewrite X in Hr. in_cases Hr. discriminate Hr. }
  destruct (d_thread s t) as [|q1|q1 r1|q1 l1|q1 r1] eqn:Et.
  - rewrite HTt in B. destruct B.
  - destruct HTt as [X _]. rewrite X in B. in_cases B. injection B as <- _. right. right. exists t, q1. split; [apply UP, Et|left; split; reflexivity].
  - destruct HTt as (X & _ & k & K & I). right. left. exists (DRemove t). cbn [dedup_step]. rewrite Et, K. eexists. eexists. split; [left; reflexivity|reflexivity].
  - destruct HTt as [X (tr1 & tr2 & ql & k & Etr & P & K & K' & A)]. rewrite X in B. in_cases B. injection B as <- _.
    destruct A as [A|[r A]].
    + right. right. exists l1, ql. split; [apply UP, A|]. right. apply key_same; [exact Oq|apply (O l1 ql (OAsk ql)); rewrite Etr; apply in_or_app; left; apply P|].
      exists k. split; assumption.
    + right. left. exists (DWake t). cbn [dedup_step]. rewrite Et, A. eexists. eexists. split; [right; reflexivity|reflexivity].
  - left. exists r1. destruct HTt as [(r0 & X & _)|(l0 & r0 & X & _)].
    + exists (DRemove t). split; [left; reflexivity|]. apply in_evs. cbn [tid]. rewrite X. right. right. left. reflexivity.
    + exists (DWake t). split; [right; reflexivity|]. apply in_evs. cbn [tid]. rewrite X. right. left. reflexivity.
Qed.

(** A call begins once, asks at most once and returns at most once *)
Theorem once l s tr t : dedup_exec dedup_init l = Some (s, tr) ->
  length (filter (fun x => match snd x with OAsk _ => Nat.eqb (tid (fst x)) t | _ => false end) tr) <= 1 /\
  length (filter (fun x => match snd x with OReturn _ => Nat.eqb (tid (fst x)) t | _ => false end) tr) <= 1.
Proof.
  intros E. apply exec_init in E. destruct E as (HT & _). specialize (HT t).
  assert (G : forall f : devent * dout -> bool, length (filter (fun x => f x && Nat.eqb (tid (fst x)) t) tr) = length (filter f (evs tr t))).
  { intros f. unfold evs. clear. induction tr as [|x tr IH]; [reflexivity|]. cbn [filter]. destruct (Nat.eqb (tid (fst x)) t).
    - cbn [filter]. rewrite andb_true_r. destruct (f x); cbn [length]; lia.
    - rewrite andb_false_r. exact IH. }
  rewrite (filter_ext _ (fun x => (match snd x with OAsk _ => true | _ => false end) && Nat.eqb (tid (fst x)) t)) by (intros [e [| |]]; reflexivity).
  rewrite (filter_ext (fun x => match snd x with OReturn _ => Nat.eqb (tid (fst x)) t | _ => false end) (fun x => (match snd x with OReturn _ => true | _ => false end) && Nat.eqb (tid (fst x)) t)) by (intros [e [| |]]; reflexivity).
  rewrite !G. unfold tinv in HT.
  destruct (d_thread s t) as [|q1|q1 r1|q1 l1|q1 r1];
    [rewrite HT|destruct HT as [-> _]|destruct HT as [-> _]|destruct HT as [-> _]|destruct HT as [(r0 & -> & _)|(l0 & r0 & -> & _)]]; cbn; lia.
Qed.

(** Queries of different opcodes share. *)
Lemma opcode_shared : exists q q', same_question q q' /\ m_opcode q = 0%N /\ m_opcode q' = 4%N.
Proof.
  exists (Msg 1 false 0 false false true false false false 0 [Q "a." 1 1] [] [] []), (Msg 2 false 4 false false true false false false 0 [Q "a." 1 1] [] [] []).
  split; [|split; reflexivity]. eexists. eexists. eexists. eexists. split; [reflexivity|]. split; [reflexivity|].
  repeat (split; [reflexivity|]). exists None, None. split; [constructor; reflexivity|]. split; [constructor; reflexivity|]. left. reflexivity.
Qed.

(** ** An execution: two callers of one question, one of another *)
Definition dq (id : N) (name : string) : msg := Msg id false 0 false false true false false false 0 [Q name 1 1] [] [] [].
Definition da (id : N) (name : string) : msg := Msg id true 0 false false true true false false 0 [Q name 1 1] [RR name 1 1 60 (DA [1;2;3;4]%N)] [] [].
Definition demo_events : list devent :=
  [DEnter 1 (dq 7 "a."); DEnter 2 (dq 8 "A."); DEnter 3 (dq 9 "b."); DReply 1 (Ans (da 7 "a.")); DWake 2; DReply 3 Drop; DRemove 1; DRemove 3; DEnter 4 (dq 5 "a.")].
Lemma demo_events_run : option_map (fun x => map snd (snd x)) (dedup_exec dedup_init demo_events) =
  Some [OAsk (dq 7 "a."); ONone; OAsk (dq 9 "b."); ONone; OReturn (Ans (set_question [Q "A." 1 1] (da 8 "a."))); ONone; OReturn (Ans (da 7 "a.")); OReturn Drop; OAsk (dq 5 "a.")].
Proof. vm_compute. reflexivity. Qed.
Lemma demo_subnets : forall s tr, dedup_exec dedup_init demo_events = Some (s, tr) -> subnets_ok tr.
Proof.
  intros s tr E t q o H. assert (X : In (DEnter t q) (map fst tr)) by (apply in_map_iff; exists (DEnter t q, o); split; [reflexivity|exact H]).
  assert (Y : map fst tr = demo_events) by (apply (f_equal (option_map (fun x => map fst (snd x)))) in E; cbn in E; injection E as E; symmetry; exact E).
  rewrite Y in X. unfold demo_events in X. in_cases X; try discriminate X; injection X as _ <-; exact I.
Qed.
