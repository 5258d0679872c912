(** Lemmas about replace, minimize, collapse and truncate-retry. *)
From Verif Require Import Base Bytes Dns Modifiers_model Modifiers_spec.
Local Open Scope N_scope.

Lemma applied_fold exps : forall n, applied exps n (apply_exps exps n).
Proof. unfold apply_exps. induction exps as [|f l IH]; intros n; cbn [fold_left]; constructor; apply IH. Qed.
Lemma applied_fun exps : forall n n', applied exps n n' -> n' = apply_exps exps n.
Proof. unfold apply_exps. induction 1 as [|f l n n' _ IH]; [reflexivity|]. exact IH. Qed.

Lemma set_qname_asks name m : asks name m (set_qname name m).
Proof. unfold asks, set_qname. destruct (m_question m) as [|x l] eqn:E; [left; split; reflexivity|right; exists x, l; split; reflexivity]. Qed.

Lemma replace_spec exps resolve q x l new : m_question q = x :: l -> applied exps (q_name x) new ->
  exists sent r, replace_resolve exps resolve q = Some (sent, r) /\
    (new = q_name x -> sent = q /\ r = resolve q) /\
    (new <> q_name x -> asks new q sent /\
      match resolve sent with
      | Ans a => exists a', r = Ans a' /\ renamed (q_name x) new a a'
      | r' => r = r'
      end).
Proof.
  intros E A. apply applied_fun in A. unfold replace_resolve. rewrite E. cbv zeta. rewrite <- A.
  destruct (String.eqb_spec new (q_name x)) as [Eq|Ne].
  - eexists _, _. split; [reflexivity|]. split; [intros _; split; reflexivity|]. intros H. contradiction.
  - eexists _, _. split; [reflexivity|]. split; [intros H; contradiction|]. intros _. split; [apply set_qname_asks|].
    destruct (resolve (set_qname new q)) as [a| |e]; try reflexivity. eexists. split; [reflexivity|].
    eexists _, _. split; [apply set_qname_asks|]. split; [reflexivity|].
    induction (m_answer a) as [|r rs IH]; cbn [map]; [constructor|]. constructor; [|exact IH].
    destruct (String.eqb_spec (rr_name r) new); split; intros; try contradiction; reflexivity.
Qed.

Lemma minimize_spec r a' : minimize_resolve r = Ans a' <->
  exists a, r = Ans a /\ m_ns a' = [] /\ m_extra a' = [] /\ m_answer a' = m_answer a /\ m_question a' = m_question a /\
    m_id a' = m_id a /\ m_response a' = m_response a /\ m_opcode a' = m_opcode a /\ m_rcode a' = m_rcode a /\
    m_aa a' = m_aa a /\ m_tc a' = m_tc a /\ m_rd a' = m_rd a /\ m_ra a' = m_ra a /\ m_ad a' = m_ad a /\ m_cd a' = m_cd a.
Proof.
  split.
  - destruct r as [a| |e]; [|discriminate|discriminate]. cbn. intros H. injection H as <-. exists a. repeat split.
  - intros (a & -> & H). destruct a', a. cbn in *. destruct H as (-> & -> & -> & -> & -> & -> & -> & -> & -> & -> & -> & -> & -> & ->). reflexivity.
Qed.

Lemma collapsed_filter x l : collapsed x l (map (set_name (q_name x)) (filter (fun r => N.eqb (rr_type r) (q_type x) && N.eqb (rr_class r) (q_class x)) l)).
Proof.
  induction l as [|r l IH]; cbn [filter map]; [constructor|].
  destruct (N.eqb_spec (rr_type r) (q_type x)) as [T|T]; cbn [andb]; [destruct (N.eqb_spec (rr_class r) (q_class x)) as [C|C]|].
  - cbn [map]. apply Co_keep; assumption.
  - apply Co_drop; [intros [_ C']; contradiction|exact IH].
  - apply Co_drop; [intros [T' _]; contradiction|exact IH].
Qed.

Lemma response_bare q rcode : bare_reply q rcode (responseWithCode q rcode).
Proof.
  unfold bare_reply, responseWithCode, set_rcode, set_reply. cbn. destruct (m_question q); repeat split.
Qed.

Lemma collapse_spec nullRCode resolve q x l : m_question q = x :: l ->
  exists r, collapse_resolve nullRCode resolve q = Some r /\
    match resolve q with
    | Ans a => (m_rcode a <> 0 -> r = Ans a) /\
               (m_rcode a = 0 -> exists an, collapsed x (m_answer a) an /\
                  (an <> [] -> r = Ans (set_answer an a)) /\
                  (an = [] -> exists b, r = Ans b /\ bare_reply q nullRCode b))
    | r' => r = r'
    end.
Proof.
  intros E. unfold collapse_resolve. destruct (resolve q) as [a| |e]; [|eexists; split; reflexivity|eexists; split; reflexivity].
  unfold RcodeSuccess. destruct (N.eqb_spec (m_rcode a) 0) as [Z|Z]; cbn [negb].
  - rewrite E. cbv zeta. eexists. split; [reflexivity|]. split; [intros; contradiction|]. intros _.
    eexists. split; [apply collapsed_filter|]. destruct (map _ _) as [|r rs].
    + split; [intros H; destruct H; reflexivity|]. intros _. eexists. split; [reflexivity|]. apply response_bare.
    + split; [reflexivity|discriminate].
  - eexists. split; [reflexivity|]. split; [reflexivity|intros; contradiction].
Qed.

Lemma truncate_spec resolve retry q :
  match resolve q with
  | Ans a => if m_tc a then truncate_resolve resolve retry q = ([q], [q], retry q) else truncate_resolve resolve retry q = ([q], [], Ans a)
  | r => truncate_resolve resolve retry q = ([q], [], r)
  end.
Proof. unfold truncate_resolve. destruct (resolve q) as [a| |e]; try reflexivity. destruct (m_tc a); reflexivity. Qed.
