From Verif Require Import Base Bytes Dns Blocklist_model Static_model Static_spec.
Local Open Scope nat_scope.

Definition points (h : heap) (p : option ptr) (r : rr) : Prop := exists x, p = Some x /\ nth_error h x = Some r.

Lemma nth_error_in_app (h t : heap) x r : nth_error h x = Some r -> nth_error (h ++ t) x = Some r.
Proof. intros E. rewrite nth_error_app1; [exact E|]. apply nth_error_Some. congruence. Qed.
Lemma points_app h t p r : points h p r -> points (h ++ t) p r.
Proof. intros (x & -> & E). exists x. split; [reflexivity|]. apply nth_error_in_app, E. Qed.
Lemma points_all_app h t l rs : Forall2 (points h) l rs -> Forall2 (points (h ++ t)) l rs.
Proof. induction 1; constructor; auto using points_app. Qed.

Lemma read_ok newRR texts : forall h rs, Forall2 (fun t r => newRR t = Some (Some r)) texts rs ->
  exists l, read_records newRR h texts = Some (h ++ rs, l) /\ Forall2 (points (h ++ rs)) l rs.
Proof.
  induction texts as [|t texts IH]; intros h rs F; inversion F as [|? r ? rs' E F']; subst; cbn [read_records].
  - exists []. rewrite app_nil_r. split; [reflexivity|constructor].
  - rewrite E. destruct (IH (h ++ [r]) rs' F') as (l & R & P). rewrite R. rewrite <- app_assoc in *. exists (Some (length h) :: l).
    split; [reflexivity|]. constructor; [|exact P]. exists (length h). split; [reflexivity|].
    rewrite nth_error_app2, Nat.sub_diag by lia. reflexivity.
Qed.
Lemma new_ok newRR h ta tn te rc tc ede A N E : Forall2 (fun t r => newRR t = Some (Some r)) ta A -> Forall2 (fun t r => newRR t = Some (Some r)) tn N -> Forall2 (fun t r => newRR t = Some (Some r)) te E ->
  exists s, newStatic newRR h ta tn te rc tc ede = Some (h ++ A ++ N ++ E, s) /\ Forall2 (points (h ++ A ++ N ++ E)) (s_answer s) A /\ Forall2 (points (h ++ A ++ N ++ E)) (s_ns s) N /\
    Forall2 (points (h ++ A ++ N ++ E)) (s_extra s) E /\ s_rcode s = rc /\ s_truncate s = tc /\ s_ede s = ede.
Proof.
  intros FA FN FE. unfold newStatic.
  destruct (read_ok newRR ta h A FA) as (a & -> & PA). destruct (read_ok newRR tn (h ++ A) N FN) as (n & -> & PN). destruct (read_ok newRR te ((h ++ A) ++ N) E FE) as (e & -> & PE).
  eexists. split; [rewrite <- !app_assoc; reflexivity|]. cbn. repeat split; auto.
  - replace (h ++ A ++ N ++ E) with ((h ++ A) ++ N ++ E) by (rewrite !app_assoc; reflexivity). apply points_all_app, PA.
  - replace (h ++ A ++ N ++ E) with (((h ++ A) ++ N) ++ E) by (rewrite !app_assoc; reflexivity). apply points_all_app, PN.
  - replace (h ++ A ++ N ++ E) with (((h ++ A) ++ N) ++ E) by (rewrite !app_assoc; reflexivity). exact PE.
Qed.

Lemma copy_ok l : forall h rs, Forall2 (points h) l rs -> copyRRs h l = Some (h ++ rs, seq (length h) (length rs)).
Proof.
  induction l as [|p l IH]; intros h rs F; inversion F as [|? r ? rs' P F']; subst; cbn [copyRRs].
  - rewrite app_nil_r. reflexivity.
  - destruct P as (x & -> & E). rewrite E. rewrite (IH (h ++ [r]) rs' (points_all_app _ _ _ _ F')).
    rewrite <- app_assoc. cbn [app length seq]. repeat f_equal. rewrite app_length. cbn. lia.
Qed.
Lemma write_mid (a : heap) x b r : write (a ++ x :: b) (length a) r = a ++ r :: b.
Proof. induction a as [|y a IH]; cbn; [reflexivity|]. rewrite IH. reflexivity. Qed.
Lemma write_length h : forall p r, length (write h p r) = length h.
Proof. induction h as [|x h IH]; intros [|p] r; cbn; auto. Qed.
Lemma write_other h : forall p x r, x <> p -> nth_error (write h p r) x = nth_error h x.
Proof. induction h as [|y h IH]; intros [|p] [|x] r N; cbn; try reflexivity; [congruence|apply IH; congruence]. Qed.
Lemma rename_seq name rs : forall h t, rename (h ++ rs ++ t) name (seq (length h) (length rs)) = h ++ map (set_name name) rs ++ t.
Proof.
  induction rs as [|r rs IH]; intros h t; cbn [length seq rename map app]; [reflexivity|].
  rewrite nth_error_app2, Nat.sub_diag by lia. cbn [nth_error]. rewrite write_mid.
  replace (h ++ set_name name r :: rs ++ t) with ((h ++ [set_name name r]) ++ rs ++ t) by (rewrite <- app_assoc; reflexivity).
  replace (S (length h)) with (length (h ++ [set_name name r])) by (rewrite app_length; cbn; lia).
  rewrite IH. rewrite <- app_assoc. reflexivity.
Qed.
Lemma deref_seq rs : forall h t, deref (h ++ rs ++ t) (seq (length h) (length rs)) = rs.
Proof.
  unfold deref. induction rs as [|r rs IH]; intros h t; cbn [length seq flat_map]; [reflexivity|].
  cbn [app]. rewrite nth_error_app2, Nat.sub_diag by lia. cbn [nth_error app]. f_equal.
  replace (h ++ r :: rs ++ t) with ((h ++ [r]) ++ rs ++ t) by (rewrite <- app_assoc; reflexivity).
  replace (S (length h)) with (length (h ++ [r])) by (rewrite app_length; cbn; lia). apply IH.
Qed.

Lemma find_opt_last l r : N.eqb (rr_type r) TypeOPT = true -> find_opt (l ++ [r]) = Some r.
Proof. intros E. induction l as [|x l IH]; cbn; [rewrite E; reflexivity|]. rewrite IH. reflexivity. Qed.
Lemma map_opt_last f l r : N.eqb (rr_type r) TypeOPT = true -> map_opt f (l ++ [r]) = l ++ [f r].
Proof. intros E. induction l as [|x l IH]; cbn; [rewrite E; reflexivity|]. rewrite (find_opt_last l r E), IH. reflexivity. Qed.
Lemma ede_extra t m q : ede_apply t m q None = set_extra (m_extra m ++ match ede_of t q with Some (code, text) => [RR "." 41 4096 0 (DOPT [EDE code text])] | None => [] end) m.
Proof.
  unfold ede_apply, ede_of. destruct t as [t|]; [|rewrite app_nil_r; destruct m; reflexivity].
  destruct (ede_text t q None) as [s|]; [|rewrite app_nil_r; destruct m; reflexivity].
  unfold update_edns0, set_edns0. change (m_extra (set_extra (m_extra m ++ [new_opt 4096 false []]) m)) with (m_extra m ++ [new_opt 4096 false []]).
  rewrite map_opt_last by reflexivity. reflexivity.
Qed.


Lemma resolve_ok s h q A N E : Forall2 (points h) (s_answer s) A -> Forall2 (points h) (s_ns s) N -> Forall2 (points h) (s_extra s) E ->
  exists a, static_resolve s h q = Some (h ++ map (set_name (qName q)) A ++ N ++ E, seq (length h) (length A + length N + length E), a) /\
    fixed_reply A N E (s_rcode s) (s_truncate s) (ede_of (s_ede s) q) q a.
Proof.
  intros PA PN PE. unfold static_resolve. rewrite (copy_ok _ _ _ PA).
  rewrite (copy_ok _ _ _ (points_all_app _ A _ _ PN)).
  rewrite (copy_ok _ _ _ (points_all_app _ N _ _ (points_all_app _ A _ _ PE))).
  rewrite <- !app_assoc. rewrite rename_seq. cbv zeta.
  set (A' := map (set_name (qName q)) A).
  assert (LA : length A' = length A) by apply map_length.
  assert (DA : deref (h ++ A' ++ N ++ E) (seq (length h) (length A)) = A') by (rewrite <- LA; apply deref_seq).
  assert (DN : deref (h ++ A' ++ N ++ E) (seq (length (h ++ A)) (length N)) = N).
  { replace (h ++ A' ++ N ++ E) with ((h ++ A') ++ N ++ E) by (rewrite <- !app_assoc; reflexivity).
    replace (length (h ++ A)) with (length (h ++ A')) by (rewrite !app_length; lia). apply deref_seq. }
  assert (DE : deref (h ++ A' ++ N ++ E) (seq (length (h ++ A ++ N)) (length E)) = E).
  { replace (h ++ A' ++ N ++ E) with ((h ++ A' ++ N) ++ E ++ []) by (rewrite app_nil_r, <- !app_assoc; reflexivity).
    replace (length (h ++ A ++ N)) with (length (h ++ A' ++ N)) by (rewrite !app_length; lia). apply deref_seq. }
  rewrite DA, DN, DE, ede_extra. eexists. split.
  - do 2 f_equal. f_equal. rewrite !seq_app, !app_length, Nat.add_assoc, <- app_assoc. reflexivity.
  - subst A'. unfold fixed_reply. destruct q as [i ? op ? ? rd ? ? cd ? [|x xs] ? ? ?]; repeat split; try reflexivity; cbn in *; subst; reflexivity.
Qed.


(** The configured records are as they were, and no pointer to them has left. *)
Definition kept (h0 : heap) (st : heap * list ptr) : Prop := (exists t, fst st = h0 ++ t) /\ Forall (fun p => length h0 <= p) (snd st).
Lemma write_after (h : heap) t : forall p r, length h <= p -> exists t', write (h ++ t) p r = h ++ t'.
Proof.
  induction h as [|x h IH]; intros p r L; cbn [app]; [eauto|]. destruct p as [|p]; [cbn in L; lia|]. cbn [write length] in *.
  destruct (IH p r) as (t' & ->); [lia|]. eauto.
Qed.
Lemma seq_above a b n : b <= a -> Forall (fun p => b <= p) (seq a n).
Proof. revert a. induction n as [|n IH]; intros a L; cbn; constructor; [exact L|apply IH; lia]. Qed.
Lemma run1_kept h0 s A N E st e : Forall2 (points h0) (s_answer s) A -> Forall2 (points h0) (s_ns s) N -> Forall2 (points h0) (s_extra s) E ->
  kept h0 st -> exists st', srun1 s st e = Some st' /\ kept h0 st'.
Proof.
  intros PA PN PE ((t & F) & K). destruct e as [q|p r]; cbn [srun1].
  - rewrite F. destruct (resolve_ok s (h0 ++ t) q A N E) as (a & -> & _); try (apply points_all_app; assumption).
    eexists. split; [reflexivity|]. split; cbn [fst snd].
    + eexists. rewrite <- app_assoc. reflexivity.
    + apply Forall_app. split; [|exact K]. apply seq_above. rewrite app_length. lia.
  - destruct (existsb (Nat.eqb p) (snd st)) eqn:X; [|exists st; split; [reflexivity|split; eauto]].
    apply existsb_exists in X. destruct X as (y & I & Y). apply Nat.eqb_eq in Y. subst y.
    rewrite Forall_forall in K. destruct (write_after h0 t p r (K p I)) as (t' & W).
    eexists. split; [reflexivity|]. split; cbn [fst snd]; [rewrite F, W; eauto|apply Forall_forall, K].
Qed.
Lemma run_kept h0 s A N E es : forall st, Forall2 (points h0) (s_answer s) A -> Forall2 (points h0) (s_ns s) N -> Forall2 (points h0) (s_extra s) E ->
  kept h0 st -> exists st', srun s st es = Some st' /\ kept h0 st'.
Proof.
  induction es as [|e es IH]; intros st PA PN PE K; cbn [srun]; [eauto|].
  destruct (run1_kept h0 s A N E st e PA PN PE K) as (st1 & -> & K1). auto.
Qed.

Lemma static_fixed newRR h ta tn te rc tc ede A N E :
  Forall2 (fun t r => newRR t = Some (Some r)) ta A -> Forall2 (fun t r => newRR t = Some (Some r)) tn N -> Forall2 (fun t r => newRR t = Some (Some r)) te E ->
  exists h0 s, newStatic newRR h ta tn te rc tc ede = Some (h0, s) /\ forall es, exists st, srun s (h0, []) es = Some st /\
    forall q, exists h' l a, static_resolve s (fst st) q = Some (h', l, a) /\ fixed_reply A N E rc tc (ede_of ede q) q a.
Proof.
  intros FA FN FE. destruct (new_ok newRR h ta tn te rc tc ede A N E FA FN FE) as (s & X & PA & PN & PE & <- & <- & <-).
  eexists _, s. split; [exact X|]. intros es.
  destruct (run_kept _ s A N E es (h ++ A ++ N ++ E, []) PA PN PE) as (st & R & (t & F) & _); [split; [exists []; rewrite app_nil_r; reflexivity|constructor]|].
  exists st. split; [exact R|]. intros q. rewrite F.
  destruct (resolve_ok s ((h ++ A ++ N ++ E) ++ t) q A N E) as (a & -> & Fx); try (apply points_all_app; assumption). eauto 10.
Qed.
Lemma read_bad newRR texts : forall h, Exists (fun t => newRR t = None) texts -> read_records newRR h texts = None.
Proof.
  induction texts as [|t texts IH]; intros h X; inversion X as [? ? H|? ? H]; subst; cbn [read_records].
  - rewrite H. reflexivity.
  - destruct (newRR t) as [[r|]|]; [rewrite IH by exact H; reflexivity|rewrite IH by exact H; reflexivity|reflexivity].
Qed.
Lemma static_rejects newRR h ta tn te rc tc ede : Exists (fun t => newRR t = None) (ta ++ tn ++ te) -> newStatic newRR h ta tn te rc tc ede = None.
Proof.
  intros X. unfold newStatic. rewrite !Exists_app in X. destruct X as [X|[X|X]].
  - rewrite read_bad by exact X. reflexivity.
  - destruct (read_records newRR h ta) as [[h1 a]|]; [|reflexivity]. rewrite read_bad by exact X. reflexivity.
  - destruct (read_records newRR h ta) as [[h1 a]|]; [|reflexivity]. destruct (read_records newRR h1 tn) as [[h2 n]|]; [|reflexivity]. rewrite read_bad by exact X. reflexivity.
Qed.
Lemma static_nil newRR : newRR EmptyString = Some None -> exists h s, newStatic newRR [] [EmptyString] [] [] 0 false None = Some (h, s) /\ forall h' q, static_resolve s h' q = None.
Proof. intros E. unfold newStatic. cbn [read_records]. rewrite E. eexists _, _. split; [reflexivity|]. reflexivity. Qed.

Lemma process_rendered newRR i ts : (forall t text, In t ts -> t i = Some text -> newRR text <> Some None) -> exists rs, process newRR i ts = map Some rs /\ rendered newRR i ts rs.
Proof.
  induction ts as [|t ts IH]; intros H; cbn [process]; [exists []; split; [reflexivity|constructor]|].
  destruct IH as (rs & P & R); [intros; eapply H; [right|]; eauto|].
  destruct (t i) as [text|] eqn:T; [|exists rs; split; [exact P|apply Ren_fail; assumption]].
  destruct (newRR text) as [[r|]|] eqn:M.
  - exists (r :: rs). cbn [map]. rewrite P. split; [reflexivity|]. eapply Ren_take; eauto.
  - destruct (H t text (or_introl eq_refl) T M).
  - exists rs. split; [exact P|]. eapply Ren_bad; eauto.
Qed.
Lemma rendered_fun {I} newRR (i : I) ts rs1 : rendered newRR i ts rs1 -> forall rs2, rendered newRR i ts rs2 -> rs1 = rs2.
Proof. induction 1; intros rs2 R; inversion R; subst; try congruence; auto. f_equal; [congruence|auto]. Qed.

Lemma template_ok newRR cts tts ta tn te rc tc ede q : (forall t text, In t (ta ++ tn ++ te) -> t (input_of cts tts q) = Some text -> newRR text <> Some None) ->
  exists m A N E x, template_resolve newRR cts tts ta tn te rc tc ede q = (m, map Some A, map Some N, map Some (E ++ x)) /\
    rendered newRR (input_of cts tts q) ta A /\ rendered newRR (input_of cts tts q) tn N /\ rendered newRR (input_of cts tts q) te E /\
    fixed_reply [] [] [] rc tc (ede_of ede q) q (set_extra x m).
Proof.
  intros H. destruct (process_rendered newRR (input_of cts tts q) ta) as (A & PA & RA); [intros t x I; apply H, in_or_app; auto|].
  destruct (process_rendered newRR (input_of cts tts q) tn) as (N & PN & RN); [intros t x I; apply H, in_or_app; right; apply in_or_app; auto|].
  destruct (process_rendered newRR (input_of cts tts q) te) as (E & PE & RE); [intros t x I; apply H, in_or_app; right; apply in_or_app; auto|].
  unfold template_resolve. cbv zeta. rewrite PA, PN, PE, ede_extra, <- map_app. eexists _, A, N, E, _. split; [reflexivity|]. split; [exact RA|]. split; [exact RN|]. split; [exact RE|].
  clear. unfold fixed_reply. destruct q as [i ? op ? ? rd ? ? cd ? [|x xs] ? ? ?]; repeat split; try reflexivity; cbn in *; subst; reflexivity.
Qed.
Lemma template_nil newRR : newRR EmptyString = Some None -> exists ta, forall cts tts q, exists m n e, template_resolve newRR cts tts ta [] [] 0 false None q = (m, [None], n, e).
Proof. intros H. exists [fun _ => Some EmptyString]. intros cts tts q. unfold template_resolve. cbn [process]. rewrite H. eauto. Qed.
Lemma input_fields cts tts q x rest : m_question q = x :: rest -> input_of cts tts q = TInput (m_id q) (q_name x) (cts (q_class x)) (tts (q_type x)).
Proof. intros E. unfold input_of. rewrite E. reflexivity. Qed.
