(** dnssec.go: what the client gets, and what is asked upstream. *)
From Verif Require Import Base Bytes Dns Name_model Denial_model Keystore_model Dnssec_model Modifiers_spec Modifiers_proofs Strip_spec.
From Coq Require Import ZifyBool ZifyNat ZifyN.
Open Scope N_scope.

Lemma is_opt_iff r : is_opt r = true <-> opt_rr r.
Proof. unfold is_opt, opt_rr. destruct (rr_data r); split; try discriminate; try (intros (o & H); discriminate H); eauto. Qed.
Lemma keep_iff qtype r : keep_rr qtype r = false <-> dnssec_rr qtype r.
Proof.
  unfold keep_rr, dnssec_rr. rewrite !orb_false_iff, negb_false_iff, !orb_true_iff, !N.eqb_eq, N.eqb_neq.
  assert (E : is_opt r = false <-> ~ opt_rr r) by (rewrite <- is_opt_iff; destruct (is_opt r); split; congruence). rewrite E. cbn.
  unfold TypeRRSIG, TypeNSEC, TypeNSEC3. split; [intros [[A B] [[C|C]|C]]; rewrite C in *; auto 6|]. intros ([X|[X|[X|[]]]] & B & A); rewrite <- X in *; auto.
Qed.
Lemma filter_without (f : rr -> bool) (P : rr -> Prop) l : (forall r, f r = false <-> P r) -> without P l (filter f l).
Proof.
  intros H. induction l as [|r l IH]; cbn; [constructor|]. destruct (f r) eqn:E; [|constructor; [apply H, E|exact IH]]. constructor; [|exact IH]. intros X. apply H in X. congruence.
Qed.
Lemma strip_do a had qtype : stripDNSSEC a true had qtype = a.
Proof. reflexivity. Qed.
Lemma strip_plain a qtype : let b := stripDNSSEC a false false qtype in
  without (dnssec_rr qtype) (m_answer a) (m_answer b) /\ without (dnssec_rr qtype) (m_ns a) (m_ns b) /\
  without (fun r => dnssec_rr qtype r \/ opt_rr r) (m_extra a) (m_extra b) /\ same_rest a b.
Proof.
  cbn. split; [apply filter_without, keep_iff|]. split; [apply filter_without, keep_iff|]. split; [|repeat split].
  unfold filterDNSSECRR. induction (m_extra a) as [|r l IH]; cbn; [constructor|]. destruct (keep_rr qtype r) eqn:K; cbn.
  - destruct (is_opt r) eqn:O; cbn.
    + apply wo_drop; [right; apply is_opt_iff, O|exact IH].
    + apply wo_keep; [|exact IH]. intros [X|X]; [apply keep_iff in X; congruence|apply is_opt_iff in X; congruence].
  - apply wo_drop; [left; apply keep_iff, K|exact IH].
Qed.
Lemma strip_edns a qtype : let b := stripDNSSEC a false true qtype in
  without (dnssec_rr qtype) (m_answer a) (m_answer b) /\ without (dnssec_rr qtype) (m_ns a) (m_ns b) /\
  (exists extra, without (dnssec_rr qtype) (m_extra a) extra /\ do_cleared extra (m_extra b)) /\ same_rest a b.
Proof.
  unfold stripDNSSEC. cbv zeta. cbn [negb]. match goal with |- context [update_edns0 _ ?m] => set (c := m) end.
  assert (CA : m_answer c = filterDNSSECRR (m_answer a) qtype) by reflexivity. assert (CN : m_ns c = filterDNSSECRR (m_ns a) qtype) by reflexivity. assert (CE : m_extra c = filterDNSSECRR (m_extra a) qtype) by reflexivity.
  assert (CR : same_rest a c) by (repeat split). clearbody c.
  split; [cbn [update_edns0 set_extra m_answer]; rewrite CA; apply filter_without, keep_iff|]. split; [cbn [update_edns0 set_extra m_ns]; rewrite CN; apply filter_without, keep_iff|]. split; [|exact CR].
  exists (m_extra c). split; [rewrite CE; apply filter_without, keep_iff|].
  destruct (is_edns0_cases c) as [[NE Z]|(pre & r & post & (E & T & F) & Z & U)].
  - left. split; [exact NE|]. unfold update_edns0. cbn. unfold is_edns0 in Z. clear -Z. induction (m_extra c) as [|x l IH]; [reflexivity|]. cbn in *. destruct (find_opt l); [discriminate Z|]. destruct (rr_type x =? TypeOPT); [discriminate Z|reflexivity].
  - right. exists pre, r, (opt_set_do false r), post. rewrite U. cbn. split; [exact E|]. split; [exact T|]. split; [exact F|]. split; [reflexivity|]. split; [reflexivity|]. split; [exact T|]. split; [reflexivity|]. split; [reflexivity|].
    split; [apply N.clearbit_eq|]. intros i NI. apply N.clearbit_neq. auto.
Qed.
(** The upstream query *)
Lemma upstream_ok q : let u := upstream_query q in
  same_rest q u /\ m_answer u = m_answer q /\ m_ns u = m_ns q /\
  ((Forall (fun r => rr_type r <> 41) (m_extra q) /\ exists o, m_extra u = m_extra q ++ [o] /\ rr_type o = 41 /\ rr_class o = 4096 /\ N.testbit (rr_ttl o) 15 = true /\ rr_data o = DOPT []) \/
   exists pre r r' post, m_extra q = pre ++ r :: post /\ rr_type r = 41 /\ Forall (fun x => rr_type x <> 41) post /\ m_extra u = pre ++ r' :: post /\
     rr_name r' = rr_name r /\ rr_type r' = 41 /\ rr_class r' = 4096 /\ rr_data r' = rr_data r /\ N.testbit (rr_ttl r') 15 = true /\ forall i, i <> 15 -> N.testbit (rr_ttl r') i = N.testbit (rr_ttl r) i).
Proof.
  unfold upstream_query. cbv zeta. destruct (is_edns0_cases q) as [[NE Z]|(pre & r & post & (E & T & F) & Z & U)]; rewrite Z.
  - split; [repeat split|]. split; [reflexivity|]. split; [reflexivity|]. left. split; [exact NE|]. exists (new_opt 4096 true []). repeat split.
  - rewrite U. split; [repeat split|]. split; [reflexivity|]. split; [reflexivity|]. right. eexists pre, r, _, post. split; [exact E|]. split; [exact T|]. split; [exact F|]. split; [reflexivity|]. cbn. split; [reflexivity|]. split; [exact T|]. split; [reflexivity|]. split; [reflexivity|].
    split; [apply N.setbit_eq|]. intros i NI. apply N.setbit_neq. auto.
Qed.
