From Verif Require Import Base Bytes Dns Logs_model Logs_spec.
Local Open Scope N_scope.

Lemma matching_filter t l : matching t l = filter (fun r => N.eqb (rr_type r) t) l.
Proof. induction l as [|r l IH]; cbn; [reflexivity|]. rewrite IH. reflexivity. Qed.
Definition entries (q : msg) (n : nat) : nat -> list rr -> list entry :=
  fix go i l := match l with [] => [] | r :: l' => LAnswer (m_id q) (S i) n (qType q) (qName q) r :: go (S i) l' end.
Lemma answer_entries q n l : forall i, answer_lines q n i l = map Write (entries q n i l).
Proof. induction l as [|r l IH]; intros i; cbn; [reflexivity|]. rewrite IH. reflexivity. Qed.
Lemma entries_length q n l : forall i, length (entries q n i l) = length l.
Proof. induction l as [|r l IH]; intros i; cbn; auto. Qed.
Lemma entries_nth q n l : forall i k r, nth_error l k = Some r -> nth_error (entries q n i l) k = Some (LAnswer (m_id q) (S (i + k)) n (qType q) (qName q) r).
Proof.
  induction l as [|x l IH]; intros i [|k] r E; cbn in *; try discriminate.
  - injection E as ->. rewrite Nat.add_0_r. reflexivity.
  - rewrite (IH (S i) k r E). replace (i + S k)%nat with (S i + k)%nat by lia. reflexivity.
Qed.

Lemma syslog_spec opt up q ci x rest : m_question q = x :: rest -> exists lines,
  syslog_resolve true opt up q ci = Some ((if LogRequest opt then [Write (LQuery (m_id q) (ci_ip ci) (q_type x) (q_name x))] else []) ++ [Call q ci] ++ map Write lines, up q ci) /\
  reported opt q x (up q ci) lines.
Proof.
  intros Q. unfold syslog_resolve. cbn [negb]. cbv zeta.
  assert (T : qType q = q_type x) by (unfold qType; rewrite Q; reflexivity). assert (Nm : qName q = q_name x) by (unfold qName; rewrite Q; reflexivity).
  rewrite T, Nm. destruct (up q ci) as [a| |e]; [|exists []; split; [reflexivity|apply Rep_drop]|exists []; split; [reflexivity|apply Rep_err]].
  destruct (LogResponse opt) eqn:LR; [|exists []; split; [reflexivity|apply Rep_off; exact LR]].
  destruct (N.eqb (m_rcode a) RcodeSuccess) eqn:RC.
  - apply N.eqb_eq in RC.
    set (l := if Verbose opt then m_answer a else matching (q_type x) (m_answer a)).
    assert (S : shows (Verbose opt) x (m_answer a) l) by (subst l; unfold shows; destruct (Verbose opt); [left; auto|right; split; [reflexivity|apply matching_filter]]).
    assert (X : shown_records opt q a = Some l) by (subst l; unfold shown_records; rewrite Q; destruct (Verbose opt); [reflexivity|]; destruct (m_answer a); reflexivity).
    rewrite X. rewrite answer_entries. destruct l as [|r l'] eqn:L.
    + exists [LNodata (m_id q) (q_type x) (q_name x)]. split; [reflexivity|]. apply Rep_nodata; assumption.
    + rewrite <- L in *. exists (entries q (length l) 0 l). split; [rewrite app_nil_r; reflexivity|]. clearbody l. apply (Rep_answer opt q x a l _ LR RC S).
      * rewrite L. discriminate.
      * apply entries_length.
      * intros i r0 E. rewrite (entries_nth _ _ _ 0 i r0 E). rewrite T, Nm. reflexivity.
  - apply N.eqb_neq in RC. exists [LRcode (m_id q) (q_type x) (q_name x) (m_rcode a)]. split; [reflexivity|]. apply Rep_rcode; assumption.
Qed.
Lemma syslog_down opt up q ci : syslog_resolve false opt up q ci = Some ([Call q ci], up q ci).
Proof. reflexivity. Qed.
Lemma reported_fun opt q x r l1 : reported opt q x r l1 -> forall l2, reported opt q x r l2 -> l1 = l2.
Proof.
  assert (SF : forall v l s1 s2, shows v x l s1 -> shows v x l s2 -> s1 = s2) by (intros v l s1 s2 [(A & B)|(A & B)] [(C & D)|(C & D)]; congruence).
  assert (NL : forall (shown : list rr) (l m : list entry) f, length l = length shown -> length m = length shown -> (forall i r, nth_error shown i = Some r -> nth_error l i = Some (f i r)) ->
    (forall i r, nth_error shown i = Some r -> nth_error m i = Some (f i r)) -> l = m).
  { clear. intros shown. induction shown as [|s shown IH]; intros [|a l] [|b m] f L1 L2 H1 H2; cbn in *; try discriminate; [reflexivity|].
    pose proof (H1 O s eq_refl) as A. pose proof (H2 O s eq_refl) as B. cbn in A, B. f_equal; [congruence|].
    apply (IH l m (fun i => f (S i))); [lia|lia| |]; intros i r E; [exact (H1 (S i) r E)|exact (H2 (S i) r E)]. }
  intros R1 l2 R2. destruct R1; inversion R2; subst; try congruence.
  - match goal with A : shows _ x _ [], B : shows _ x _ ?s |- _ => assert (s = []) by (eapply SF; eauto); congruence end.
  - match goal with A : shows _ x _ [], B : shows _ x _ ?s |- _ => assert (s = []) by (eapply SF; eauto); congruence end.
  - match goal with A : shows _ x _ ?s1, B : shows _ x _ ?s2 |- _ => assert (s2 = s1) by (eapply SF; eauto); subst s2 end.
    match goal with A : shows _ x _ ?s |- ?a = ?b => apply (NL s a b (fun i r => LAnswer (m_id q) (S i) (length s) (q_type x) (q_name x) r)); assumption end.
Qed.
Lemma syslog_panic : exists opt up q ci, syslog_resolve true opt up q ci = None /\ m_question q = [].
Proof.
  exists (SyslogOpts false true false), (fun q _ => Ans (set_answer [RR "a." 1 1 60 (DA [1; 2; 3; 4])] q)), empty_msg, (Client [] "" "" "").
  split; reflexivity.
Qed.

Lemma ecs_in a l : In (EcsAddr a) (ecs_attrs l) <-> exists f m s, In (ECS f m s a) l.
Proof.
  induction l as [|o l IH]; cbn [ecs_attrs]; [split; [intros []|intros (f & m & s & [])]|].
  assert (G : (exists f m s, In (ECS f m s a) (o :: l)) <-> (exists f m s, o = ECS f m s a) \/ exists f m s, In (ECS f m s a) l).
  { split; [intros (f & m & s & [->|I]); [left|right]; eauto|intros [(f & m & s & ->)|(f & m & s & I)]; exists f, m, s; [left; reflexivity|right; exact I]]. }
  rewrite G, <- IH. destruct o as [f0 m0 s0 a0| | | | |]; cbn [In];
    try (split; [intros I; right; exact I|intros [(f & m & s & X)|I]; [discriminate|exact I]]).
  split; [intros [X|I]; [injection X as ->; left; eauto|right; exact I]|intros [(f & m & s & X)|I]; [injection X as -> -> -> ->; left; reflexivity|right; exact I]].
Qed.
Lemma ecs_only l x : In x (ecs_attrs l) -> exists a, x = EcsAddr a.
Proof. induction l as [|o l IH]; cbn; [intros []|]. destruct o; cbn; auto. intros [<-|I]; eauto. Qed.
Lemma querylog_spec up q ci x rest : m_question q = x :: rest -> exists ecs,
  querylog_resolve up q ci = Some ([SourceIP (ci_ip ci); QuestionName (q_name x); QuestionClass (q_class x); QuestionType (q_type x)] ++ ecs, (q, ci), up q ci) /\
  forall y, In y ecs <-> exists o a f m s, is_edns0 q = Some o /\ In (ECS f m s a) (opt_options o) /\ y = EcsAddr a.
Proof.
  intros Q. unfold querylog_resolve. rewrite Q. cbv zeta. destruct (is_edns0 q) as [o|].
  - exists (ecs_attrs (opt_options o)). split; [reflexivity|]. intros y. split.
    + intros I. destruct (ecs_only _ _ I) as (a & ->). apply ecs_in in I. destruct I as (f & m & s & I). exists o, a, f, m, s. auto.
    + intros (o' & a & f & m & s & X & I & ->). injection X as <-. apply ecs_in. eauto.
  - exists []. split; [reflexivity|]. intros y. split; [intros []|intros (o & a & f & m & s & X & _); discriminate].
Qed.
Lemma querylog_panic up q ci : m_question q = [] -> querylog_resolve up q ci = None.
Proof. intros Q. unfold querylog_resolve. rewrite Q. reflexivity. Qed.
