From Verif Require Import Base Bytes Dns Groups_model Groups_spec.
From Coq Require Import Lia Permutation Arith.
Open Scope nat_scope.

(** ** Lists and executions *)
Lemma exec_app {S} (step : S -> gevent -> option S) l1 : forall s l2,
  exec step s (l1 ++ l2) = match exec step s l1 with None => None | Some s' => exec step s' l2 end.
Proof.
  induction l1 as [|e l1 IH]; intros s l2; [reflexivity|].
  cbn [app exec]. destruct (step s e); [apply IH|reflexivity].
Qed.

Lemma exec_inv {S} (step : S -> gevent -> option S) (P : list gevent -> S -> Prop) s0 :
  P [] s0 ->
  (forall l s e s', P l s -> step s e = Some s' -> P (l ++ [e]) s') ->
  forall l s, exec step s0 l = Some s -> P l s.
Proof.
  intros H0 Hs l. induction l as [|e l IH] using rev_ind; intros s H.
  - inversion H; subst; exact H0.
  - rewrite exec_app in H. destruct (exec step s0 l) as [s1|] eqn:E; [|discriminate].
    cbn [exec] in H. destruct (step s1 e) as [s2|] eqn:E2; [|discriminate].
    inversion H; subst. eapply Hs; [apply IH; reflexivity|exact E2].
Qed.

Lemma mine_app t l1 l2 : mine t (l1 ++ l2) = mine t l1 ++ mine t l2.
Proof. apply filter_app. Qed.

Lemma mine_other t l e : of_call t e = false -> mine t (l ++ [e]) = mine t l.
Proof. intros H. rewrite mine_app. cbn. rewrite H. apply app_nil_r. Qed.
Lemma mine_own t l e : of_call t e = true -> mine t (l ++ [e]) = mine t l ++ [e].
Proof. intros H. rewrite mine_app. cbn. rewrite H. reflexivity. Qed.

Lemma sents_app l1 l2 : sents (l1 ++ l2) = sents l1 ++ sents l2.
Proof. induction l1 as [|e l1 IH]; [reflexivity|]. destruct e; cbn [app sents]; rewrite IH; reflexivity. Qed.
Lemma failures_app l1 l2 : failures (l1 ++ l2) = failures l1 ++ failures l2.
Proof. induction l1 as [|e l1 IH]; [reflexivity|]. destruct e; cbn [app failures]; rewrite IH; reflexivity. Qed.
Lemma elapsed_app l1 l2 : elapsed (l1 ++ l2) = (elapsed l1 + elapsed l2)%Z.
Proof. induction l1 as [|e l1 IH]; [reflexivity|]. destruct e; cbn [app elapsed]; rewrite IH; lia. Qed.
Lemma last_sent_app t l1 : forall l2 c, last_sent t (l1 ++ l2) c = last_sent t l2 (last_sent t l1 c).
Proof. induction l1 as [|e l1 IH]; intros; [reflexivity|]. destruct e; cbn [app last_sent]; apply IH. Qed.

Lemma setpc_eq {A} (f : nat -> A) t v : setpc f t v t = v.
Proof. unfold setpc. rewrite Nat.eqb_refl. reflexivity. Qed.
Lemma setpc_neq {A} (f : nat -> A) t v x : x <> t -> setpc f t v x = f x.
Proof. intros H. unfold setpc. destruct (Nat.eqb_spec x t); [contradiction|reflexivity]. Qed.

Lemma succ_mod n p : p < n -> (p + 1) mod n = (if Nat.eqb (p + 1) n then 0 else p + 1).
Proof.
  intros H. destruct (Nat.eqb_spec (p + 1) n) as [E|E].
  - rewrite E. apply Nat.mod_same. lia.
  - apply Nat.mod_small. lia.
Qed.

Lemma app_inv_length {A} (a : list A) : forall b c d, length a = length c -> a ++ b = c ++ d -> a = c /\ b = d.
Proof.
  induction a as [|x a IH]; intros b [|y c] d Hl H; try discriminate; [split; [reflexivity|exact H]|].
  cbn in H. inversion H; subst. destruct (IH b c d) as [-> ->]; [cbn in Hl; lia|assumption|]. split; reflexivity.
Qed.

(** ** isSuccessResponse *)
Lemma existsb_deliberate l : existsb deliberate l = true <-> exists c x, In (EDE c x) l /\ In c [15; 16; 17]%N.
Proof.
  rewrite existsb_exists. split.
  - intros (o & Hi & Hd). destruct o; cbn [deliberate] in Hd; try discriminate.
    eexists _, _. split; [exact Hi|].
    apply orb_true_iff in Hd. destruct Hd as [Hd|Hd]; [apply orb_true_iff in Hd; destruct Hd as [Hd|Hd]|];
      apply N.eqb_eq in Hd; subst; cbn; tauto.
  - intros (c & x & Hi & Hc). exists (EDE c x). split; [exact Hi|].
    cbn in Hc. destruct Hc as [<-|[<-|[<-|[]]]]; reflexivity.
Qed.

Definition answers_something (a : msg) : Prop :=
  (exists rr q qs, In rr (m_answer a) /\ m_question a = q :: qs /\ rr_type rr = q_type q) \/
  (exists q qs, m_question a = q :: qs /\ q_type q = TypeANY /\ m_answer a <> [] /\
                ~ (exists rr, m_answer a = [rr] /\ rr_type rr = TypeHINFO)) \/
  ((m_answer a = [] \/ m_question a = []) /\
   exists o c x, is_edns0 a = Some o /\ In (EDE c x) (opt_options o) /\ In c [15; 16; 17]%N).

Lemma empty_check a :
  match m_answer a, m_question a with
  | r1 :: rest, x :: _ =>
      if existsb (fun r => N.eqb (rr_type r) (q_type x)) (m_answer a) then true
      else if N.eqb (q_type x) TypeANY then
        negb (Nat.eqb (length (m_answer a)) 1 && N.eqb (rr_type r1) TypeHINFO)
      else false
  | _, _ => match is_edns0 a with
            | Some o => existsb deliberate (opt_options o)
            | None => false
            end
  end = true <-> answers_something a.
Proof.
  assert (Hd : match is_edns0 a with Some o => existsb deliberate (opt_options o) | None => false end = true <->
               exists o c x, is_edns0 a = Some o /\ In (EDE c x) (opt_options o) /\ In c [15; 16; 17]%N).
  { destruct (is_edns0 a) as [o|].
    - rewrite existsb_deliberate. split.
      + intros (c & x & H). exists o, c, x. split; [reflexivity|exact H].
      + intros (o' & c & x & He & H). inversion He; subst. exists c, x. exact H.
    - split; [discriminate|intros (o & c & x & H & _); discriminate]. }
  unfold answers_something.
  destruct (m_answer a) as [|r1 rest] eqn:Ea.
  { rewrite Hd. split.
    - intros H. right. right. split; [left; reflexivity|exact H].
    - intros [(rr & q & qs & [] & _)|[(q & qs & _ & _ & H & _)|[_ H]]]; [contradiction|exact H]. }
  destruct (m_question a) as [|x qs] eqn:Eq.
  { rewrite Hd. split.
    - intros H. right. right. split; [right; reflexivity|exact H].
    - intros [(rr & q & qs & _ & H & _)|[(q & qs & H & _)|[_ H]]]; [discriminate|discriminate|exact H]. }
  destruct (existsb (fun r => N.eqb (rr_type r) (q_type x)) (r1 :: rest)) eqn:Ex.
  { split; [|reflexivity]. intros _. left. apply existsb_exists in Ex. destruct Ex as (rr & Hi & Ht).
    exists rr, x, qs. split; [exact Hi|]. split; [reflexivity|]. apply N.eqb_eq. exact Ht. }
  assert (Hno : ~ (exists rr q qs', In rr (r1 :: rest) /\ x :: qs = q :: qs' /\ rr_type rr = q_type q)).
  { intros (rr & q & qs' & Hi & He & Ht). inversion He; subst.
    assert (existsb (fun r => N.eqb (rr_type r) (q_type q)) (r1 :: rest) = true).
    { apply existsb_exists. exists rr. split; [exact Hi|]. apply N.eqb_eq. exact Ht. }
    congruence. }
  destruct (N.eqb_spec (q_type x) TypeANY) as [Ey|Ey].
  - split.
    + intros H. right. left. exists x, qs. split; [reflexivity|]. split; [exact Ey|]. split; [discriminate|].
      intros (rr & He & Ht). inversion He; subst. cbn in H. rewrite Ht in H. cbn in H. discriminate.
    + intros [H|[(q & qs' & He & _ & _ & H)|[[H|H] _]]]; [contradiction| |discriminate|discriminate].
      destruct (Nat.eqb_spec (length (r1 :: rest)) 1) as [El|El]; [|reflexivity].
      destruct (N.eqb_spec (rr_type r1) TypeHINFO) as [Et|Et]; [|reflexivity].
      destruct rest; [|discriminate]. exfalso. apply H. exists r1. split; [reflexivity|exact Et].
  - split; [discriminate|].
    intros [H|[(q & qs' & He & H & _)|[[H|H] _]]]; [contradiction| |discriminate|discriminate].
    inversion He; subst. contradiction.
Qed.

Lemma usable_ans_iff sf em a : m_rcode a <> RcodeRefused -> m_rcode a <> RcodeNotImplemented ->
  (m_rcode a = RcodeServerFailure -> sf = false) ->
  (usable sf em (Ans a) <-> (em = true -> answers_something a)).
Proof.
  intros H1 H2 H3. split; [intros H; inversion H; subst; assumption|].
  intros H. constructor; assumption.
Qed.

Lemma good_reply_spec sf em r : good_reply sf em r = true <-> usable sf em r.
Proof.
  destruct r as [a| |e].
  2: { cbn. split; [constructor|reflexivity]. }
  2: { cbn. split; [discriminate|intros H; inversion H]. }
  cbn [good_reply]. unfold isSuccessResponse.
  destruct (N.eqb_spec (m_rcode a) RcodeRefused) as [E2|E2].
  { rewrite orb_true_r, orb_true_l. split; [discriminate|intros H; inversion H; contradiction]. }
  destruct (N.eqb_spec (m_rcode a) RcodeNotImplemented) as [E3|E3].
  { rewrite orb_true_r. split; [discriminate|intros H; inversion H; contradiction]. }
  rewrite !orb_false_r.
  destruct (N.eqb (m_rcode a) RcodeServerFailure && sf) eqn:E1.
  { apply andb_true_iff in E1. destruct E1 as [E1 ->]. apply N.eqb_eq in E1.
    split; [discriminate|]. intros H; inversion H as [|a' Hs]; subst. specialize (Hs E1). discriminate. }
  rewrite usable_ans_iff; [|assumption|assumption|].
  2: { intros E. rewrite E in E1. cbn [andb] in E1. rewrite N.eqb_refl in E1. exact E1. }
  destruct em; cbn [negb].
  - rewrite empty_check. tauto.
  - split; [intros _ H; discriminate|reflexivity].
Qed.

(** ** Round-robin *)
Lemma rr_sents n l s : 0 < n -> exec (rr_step n) g_init l = Some s ->
  sents l = map (fun k => k mod n) (seq 0 (length (sents l))) /\ g_active s = length (sents l) mod n.
Proof.
  intros Hn. apply (exec_inv (rr_step n) (fun l s =>
    sents l = map (fun k => k mod n) (seq 0 (length (sents l))) /\ g_active s = length (sents l) mod n)).
  - split; [reflexivity|]. cbn. symmetry. apply Nat.mod_0_l. lia.
  - clear l s. intros l s e s' [H1 H2] He. rewrite sents_app, app_length.
    destruct e as [t|t idx|t r|t|t| | | |d|t|x]; cbn [rr_step] in He; try discriminate.
    + destruct (g_pc s t); try discriminate.
      destruct (Nat.eqb_spec idx (g_active s)) as [->|]; [|discriminate]. inversion He; subst; clear He.
      cbn [sents length g_active]. rewrite seq_app, map_app. cbn [seq map]. rewrite <- H1, Nat.add_0_l, <- H2.
      split; [reflexivity|]. rewrite H2. apply Nat.add_mod_idemp_l. lia.
    + destruct (g_pc s t); try discriminate. inversion He; subst; clear He.
      cbn [sents length g_active g_set]. rewrite app_nil_r, Nat.add_0_r. split; assumption.
Qed.

Lemma count_mod n i m : i < n ->
  count_occ Nat.eq_dec (map (fun k => k mod n) (seq 0 m)) i = m / n + (if Nat.ltb i (m mod n) then 1 else 0).
Proof.
  intros Hi. assert (Hn : n <> 0) by lia. induction m as [|m IH].
  - cbn [seq map count_occ]. rewrite Nat.div_0_l, Nat.mod_0_l by lia. reflexivity.
  - rewrite seq_S, map_app, count_occ_app, IH. cbn [map count_occ plus].
    assert (Hdm : m = n * (m / n) + m mod n) by (apply Nat.div_mod; exact Hn).
    assert (Hlt : m mod n < n) by (apply Nat.mod_upper_bound; exact Hn).
    revert Hdm Hlt. generalize (m / n) (m mod n). intros q r Hdm Hlt.
    destruct (Nat.eq_dec (r + 1) n) as [E|E].
    + assert (Hd : S m / n = q + 1) by (symmetry; apply Nat.div_unique with (r := 0); lia).
      assert (Hm : S m mod n = 0) by (symmetry; apply Nat.mod_unique with (q := q + 1); lia).
      rewrite Hd, Hm. destruct (Nat.eq_dec r i); destruct (Nat.ltb_spec i r); destruct (Nat.ltb_spec i 0); lia.
    + assert (Hd : S m / n = q) by (symmetry; apply Nat.div_unique with (r := r + 1); lia).
      assert (Hm : S m mod n = r + 1) by (symmetry; apply Nat.mod_unique with (q := q); lia).
      rewrite Hd, Hm. destruct (Nat.eq_dec r i); destruct (Nat.ltb_spec i r); destruct (Nat.ltb_spec i (r + 1)); lia.
Qed.

Lemma rr_fair n l s i : i < n -> exec (rr_step n) g_init l = Some s ->
  length (sents l) / n <= count_occ Nat.eq_dec (sents l) i <= length (sents l) / n + 1.
Proof.
  intros Hi H. destruct (rr_sents n l s ltac:(lia) H) as [Hs _]. rewrite Hs at 2 3.
  rewrite count_mod by exact Hi. destruct (Nat.ltb _ _); lia.
Qed.

(** any n consecutive queries reach every resolver once *)
Lemma rr_window n l s l1 w l2 i : i < n -> exec (rr_step n) g_init l = Some s ->
  sents l = l1 ++ w ++ l2 -> length w = n -> count_occ Nat.eq_dec w i = 1.
Proof.
  intros Hi H Hl Hw. destruct (rr_sents n l s ltac:(lia) H) as [Hs _].
  rewrite Hl in Hs. rewrite !app_length, !seq_app, !map_app in Hs.
  apply app_inv_length in Hs; [|rewrite map_length, seq_length; reflexivity].
  destruct Hs as [H1 Hs]. apply app_inv_length in Hs; [|rewrite map_length, seq_length; reflexivity].
  destruct Hs as [H2 _].
  assert (Ha : count_occ Nat.eq_dec (l1 ++ w) i = (length l1 + n) / n + (if Nat.ltb i ((length l1 + n) mod n) then 1 else 0)).
  { rewrite <- count_mod by exact Hi. rewrite Hw in H2. rewrite seq_app, map_app, <- H2, <- H1. reflexivity. }
  rewrite count_occ_app in Ha.
  assert (Hb : count_occ Nat.eq_dec l1 i = length l1 / n + (if Nat.ltb i (length l1 mod n) then 1 else 0)).
  { rewrite <- count_mod by exact Hi. rewrite <- H1. reflexivity. }
  rewrite Hb in Ha. clear Hb.
  assert (E1 : (length l1 + n) / n = length l1 / n + 1).
  { replace (length l1 + n) with (length l1 + 1 * n) by lia. apply Nat.div_add. lia. }
  assert (E2 : (length l1 + n) mod n = length l1 mod n).
  { replace (length l1 + n) with (length l1 + 1 * n) by lia. apply Nat.mod_add. lia. }
  rewrite E1, E2 in Ha. lia.
Qed.

Lemma rr_call n l s t : 0 < n -> exec (rr_step n) g_init l = Some s ->
  match g_pc s t with
  | Idle => mine t l = []
  | Waiting _ idx => idx < n /\ mine t l = [Sent t idx]
  | Returned r => exists idx, idx < n /\ mine t l = [Sent t idx; Reply t r]
  | _ => False
  end /\ g_active s < n.
Proof.
  intros Hn. apply (exec_inv (rr_step n) (fun l s => match g_pc s t with
  | Idle => mine t l = []
  | Waiting _ idx => idx < n /\ mine t l = [Sent t idx]
  | Returned r => exists idx, idx < n /\ mine t l = [Sent t idx; Reply t r]
  | _ => False
  end /\ g_active s < n)).
  - split; [reflexivity|exact Hn].
  - clear l s. intros l s e s' [H Ha] He.
    destruct e as [t'|t' idx|t' r|t'|t'| | | |d|t'|x]; cbn [rr_step] in He; try discriminate.
    + destruct (g_pc s t') eqn:Ep; try discriminate.
      destruct (Nat.eqb_spec idx (g_active s)) as [->|]; [|discriminate]. inversion He; subst; clear He.
      cbn [g_pc g_active]. split; [|apply Nat.mod_upper_bound; lia].
      destruct (Nat.eq_dec t t') as [<-|Hne].
      * rewrite setpc_eq. rewrite Ep in H. rewrite mine_own, H; [|apply Nat.eqb_refl]. split; [exact Ha|reflexivity].
      * rewrite setpc_neq, mine_other; [exact H| |exact Hne]. apply Nat.eqb_neq. congruence.
    + destruct (g_pc s t') eqn:Ep; try discriminate. inversion He; subst; clear He.
      cbn [g_pc g_active g_set]. split; [|exact Ha].
      destruct (Nat.eq_dec t t') as [<-|Hne].
      * rewrite setpc_eq. rewrite Ep in H. rewrite mine_own; [|apply Nat.eqb_refl].
        destruct H as [H ->]. eexists. split; [exact H|reflexivity].
      * rewrite setpc_neq, mine_other; [exact H| |exact Hne]. apply Nat.eqb_neq. congruence.
Qed.
