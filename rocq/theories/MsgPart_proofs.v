(** Lemmas about the functions of Dns.v. *)
From Verif Require Import Base Bytes Dns Text_spec Text_proofs2 MsgPart_spec.
Local Open Scope N_scope.

Ltac parts := split; [intros ? ? [[= <- <-]|[]]; reflexivity|intros p H; destruct p; try reflexivity; destruct H; cbn; tauto].
Lemma setters m : (forall v, changed m (set_id v m) [(PtId, VNum v)]) /\ (forall v, changed m (set_ra v m) [(PtRA, VBit v)]) /\
  (forall v, changed m (set_aa v m) [(PtAA, VBit v)]) /\ (forall v, changed m (set_tc v m) [(PtTC, VBit v)]) /\ (forall v, changed m (set_ad v m) [(PtAD, VBit v)]) /\
  (forall v, changed m (set_rcode_field v m) [(PtRcode, VNum v)]) /\ (forall v, changed m (set_question v m) [(PtQuestion, VQs v)]) /\
  (forall v, changed m (set_answer v m) [(PtAnswer, VRecs v)]) /\ (forall v, changed m (set_ns v m) [(PtNs, VRecs v)]) /\ (forall v, changed m (set_extra v m) [(PtExtra, VRecs v)]).
Proof. do 9 (split; [intros v; parts|]). intros v. parts. Qed.
Lemma reply_parts m req code : exists l, changed m (set_rcode m req code) ([(PtId, VNum (m_id req)); (PtResponse, VBit true); (PtOpcode, VNum (m_opcode req)); (PtRcode, VNum code)] ++ l) /\
  forall p v, In (p, v) l <-> v = at_part p req /\ (m_opcode req = 0 /\ (p = PtRD \/ p = PtCD)) \/ p = PtQuestion /\ exists x r, m_question req = x :: r /\ v = VQs [x].
Proof.
  exists ((if N.eqb (m_opcode req) 0 then [(PtRD, VBit (m_rd req)); (PtCD, VBit (m_cd req))] else []) ++ match m_question req with x :: _ => [(PtQuestion, VQs [x])] | [] => [] end).
  assert (S : forall p v, In (p, v) ((if N.eqb (m_opcode req) 0 then [(PtRD, VBit (m_rd req)); (PtCD, VBit (m_cd req))] else []) ++ match m_question req with x :: _ => [(PtQuestion, VQs [x])] | [] => [] end) <->
    v = at_part p req /\ (m_opcode req = 0 /\ (p = PtRD \/ p = PtCD)) \/ p = PtQuestion /\ exists x r, m_question req = x :: r /\ v = VQs [x]).
  { intros p v. rewrite in_app_iff.
    destruct (N.eqb_spec (m_opcode req) 0) as [E|E]; destruct (m_question req) as [|x r]; cbn [In]; split; intros H.
    all: repeat match goal with H : _ \/ _ |- _ => destruct H as [H|H] | H : False |- _ => destruct H | H : _ /\ _ |- _ => destruct H | H : exists _, _ |- _ => destruct H end; subst; try discriminate; try congruence;
      repeat match goal with H : (_, _) = (_, _) |- _ => injection H as <- <- | H : _ :: _ = _ :: _ |- _ => injection H as <- <- end; cbn [at_part]; eauto 10. }
  split; [|exact S]. split.
  - intros p v H. apply in_app_iff in H. destruct H as [H|H].
    + cbn [In] in H. repeat destruct H as [[= <- <-]|H]; try reflexivity. destruct H.
    + apply S in H. unfold set_rcode, set_rcode_field, set_reply, OpcodeQuery. destruct H as [[-> [E [-> | ->]]]|[-> (x & r & E & ->)]]; cbn; rewrite E; reflexivity.
  - intros p H. unfold set_rcode, set_rcode_field, set_reply, OpcodeQuery. rewrite map_app, in_app_iff in H. cbn [map fst In] in H.
    destruct p; try reflexivity; try (destruct H; left; tauto); cbn.
    1,2: destruct (N.eqb (m_opcode req) 0); [destruct H; right; cbn; tauto|reflexivity].
    destruct (m_question req) as [|x r]; [reflexivity|]. destruct H. right. rewrite map_app, in_app_iff. right. left. reflexivity.
Qed.
Lemma opt_split l : match find_opt l with
  | None => forall r, In r l -> rr_type r <> 41
  | Some o => exists a b, l = a ++ o :: b /\ rr_type o = 41 /\ (forall r, In r b -> rr_type r <> 41) /\ forall f, map_opt f l = a ++ f o :: b
  end.
Proof.
  induction l as [|r l IH]; cbn [find_opt map_opt]; [intros r []|]. destruct (find_opt l) as [o|].
  - destruct IH as (a & b & -> & T & N & M). exists (r :: a), b. split; [reflexivity|]. split; [exact T|]. split; [exact N|]. intros f. rewrite M. reflexivity.
  - destruct (N.eqb_spec (rr_type r) TypeOPT) as [E|E].
    + exists [], l. split; [reflexivity|]. split; [exact E|]. split; [exact IH|]. reflexivity.
    + intros x [<-|I]; [exact E|exact (IH x I)].
Qed.
Lemma last_opt_iff m o : is_edns0 m = Some o <-> exists a b, last_opt m a o b.
Proof.
  unfold is_edns0, last_opt. pose proof (opt_split (m_extra m)) as H. destruct (find_opt (m_extra m)) as [x|].
  - destruct H as (a & b & E & T & N & _). split; [intros [= <-]; eauto|]. intros (a' & b' & E' & T' & N'). f_equal. rewrite E in E'. clear -E' T T' N N'.
    revert a' E'. induction a as [|y a IH]; intros [|y' a'] E'; injection E' as E1 E2.
    + exact E1.
    + destruct (N o); [rewrite E2, in_app_iff; right; left; reflexivity|exact T'].
    + destruct (N' x); [rewrite <- E2, in_app_iff; right; left; reflexivity|exact T].
    + exact (IH a' E2).
  - split; [discriminate|]. intros (a & b & E & T & _). destruct (H o); [rewrite E, in_app_iff; right; left; reflexivity|exact T].
Qed.
Lemma no_opt_iff m : is_edns0 m = None <-> no_opt m.
Proof.
  unfold is_edns0, no_opt. pose proof (opt_split (m_extra m)) as H. destruct (find_opt (m_extra m)) as [x|]; [|tauto]. destruct H as (a & b & E & T & _).
  split; [discriminate|]. intros N. destruct (N x); [rewrite E, in_app_iff; right; left; reflexivity|exact T].
Qed.
Lemma update_last f m a o b : last_opt m a o b -> changed m (update_edns0 f m) [(PtExtra, VRecs (a ++ f o :: b))].
Proof.
  intros L. pose proof (opt_split (m_extra m)) as H. assert (E : find_opt (m_extra m) = Some o) by (apply last_opt_iff; eauto). rewrite E in H.
  destruct H as (a' & b' & E' & T & N & M). destruct L as (E2 & T2 & N2). assert (a' = a /\ b' = b) as [-> ->].
  { rewrite E' in E2. clear -E2 T N N2. revert a E2. induction a' as [|y a' IH]; intros [|y' a] E2; [injection E2 as E2; auto|injection E2 as E1 E2..].
    - destruct (N o); [rewrite E2, in_app_iff; right; left; reflexivity|exact T].
    - destruct (N2 o); [rewrite <- E2, in_app_iff; right; left; reflexivity|exact T].
    - destruct (IH a E2) as [-> ->]. subst. auto. }
  unfold update_edns0. rewrite M. apply setters.
Qed.
Lemma new_opt_bare size do : bare_opt size do (new_opt size do []).
Proof.
  unfold bare_opt, new_opt. cbn [rr_name rr_type rr_class rr_ttl rr_data]. repeat (split; [reflexivity|]). split; [|reflexivity].
  intros i. destruct do.
  - rewrite N.pow2_bits_eqb. destruct (N.eqb_spec 15 i) as [<-|]; [tauto|]. split; [discriminate|]. intros [_ ->]. contradiction.
  - rewrite N.bits_0. split; [discriminate|intros [? _]; discriminate].
Qed.
Lemma set_edns0_bare size do m : exists o, bare_opt size do o /\ changed m (set_edns0 size do m) [(PtExtra, VRecs (m_extra m ++ [o]))].
Proof. exists (new_opt size do []). split; [apply new_opt_bare|]. apply setters. Qed.
Lemma do_bit b r : rr_name (opt_set_do b r) = rr_name r /\ rr_type (opt_set_do b r) = rr_type r /\ rr_class (opt_set_do b r) = rr_class r /\ rr_data (opt_set_do b r) = rr_data r /\
  opt_do (opt_set_do b r) = b /\ (forall i, i <> 15 -> N.testbit (rr_ttl (opt_set_do b r)) i = N.testbit (rr_ttl r) i) /\ (opt_do r = true <-> N.testbit (rr_ttl r) 15 = true).
Proof.
  unfold opt_set_do, opt_do. cbn [rr_name rr_type rr_class rr_ttl rr_data]. repeat (split; [reflexivity|]). split; [destruct b; [apply N.setbit_eq|apply N.clearbit_eq]|].
  split; [|tauto]. intros i I. destruct b; [apply N.setbit_neq|apply N.clearbit_neq]; congruence.
Qed.
Lemma made_up_code q c : made_up q c [] (responseWithCode q c).
Proof.
  unfold made_up, responseWithCode, set_ra, set_rcode, set_rcode_field, set_reply, OpcodeQuery. cbn -[firstn]. repeat (split; [reflexivity|]).
  split; [|split]; [| |split; [reflexivity|split; [destruct (m_question q); reflexivity|auto]]]; destruct (N.eqb_spec (m_opcode q) 0); tauto || (split; [discriminate|tauto]).
Qed.
Lemma codes q : made_up q 3 [] (nxdomain q) /\ made_up q 2 [] (servfail q) /\ made_up q 5 [] (refused q).
Proof. exact (conj (made_up_code q 3) (conj (made_up_code q 2) (made_up_code q 5))). Qed.
Lemma ptr_ok q names : match ptr q names with
  | Some a => exists rs, made_up q 0 rs a /\ Forall2 (ptr_record (qName q)) names rs
  | None => m_question q = [] /\ names <> []
  end.
Proof.
  assert (M : forall rs, made_up q 0 rs (set_answer rs (set_ra true (set_reply empty_msg q)))).
  { intros rs. pose proof (made_up_code q 0) as H. unfold made_up in *. unfold responseWithCode in H. destruct H as (H1 & H2 & H3 & H4 & H5 & H6 & H7 & H8 & H9 & H10 & H11 & _ & H12 & H13).
    repeat (split; [assumption|]). split; [reflexivity|]. auto. }
  unfold ptr. destruct (m_question q) as [|x l] eqn:E.
  - destruct names as [|n names]; [|split; [reflexivity|discriminate]]. exists []. split; [exact (M [])|constructor].
  - eexists. split; [apply M|]. unfold qName. rewrite E. induction names as [|n names IH]; [constructor|]. constructor; [|exact IH].
    unfold ptr_record. cbn [rr_name rr_type rr_class rr_ttl rr_data]. repeat (split; [reflexivity|]). exists (fqdn n). split; [reflexivity|].
    destruct (proj1 (fqdn_iff n (fqdn n)) eq_refl) as [[H1 H2]|[H1 H2]]; [left; split; [congruence|exact H2]|right; split; [exact H1|exact H2]].
Qed.
Lemma udpsize q size : (size = 0 -> setUDPSize q size = q) /\
  (size <> 0 -> (forall a o b, last_opt q a o b -> exists o', rr_name o' = rr_name o /\ rr_type o' = rr_type o /\ rr_class o' = size /\ rr_ttl o' = rr_ttl o /\ rr_data o' = rr_data o /\
      changed q (setUDPSize q size) [(PtExtra, VRecs (a ++ o' :: b))]) /\
    (no_opt q -> exists o, bare_opt size false o /\ changed q (setUDPSize q size) [(PtExtra, VRecs (m_extra q ++ [o]))])).
Proof.
  unfold setUDPSize. split; [intros ->; reflexivity|]. intros N. destruct (N.eqb_spec size 0); [contradiction|]. split.
  - intros a o b L. assert (E : is_edns0 q = Some o) by (apply last_opt_iff; eauto). rewrite E. exists (opt_set_udpsize size o). repeat (split; [reflexivity|]). apply update_last, L.
  - intros NO. apply no_opt_iff in NO. rewrite NO. apply set_edns0_bare.
Qed.
Lemma echo q a : validateResponseQuestion q a = true <-> echoes q a.
Proof.
  unfold validateResponseQuestion, echoes. destruct (m_question q) as [|x l]; [split; [discriminate|reflexivity]|]. destruct (m_question a) as [|y l'].
  - split; [discriminate|]. intros H. destruct (H x l eq_refl) as (y & l' & E & _). discriminate E.
  - rewrite !Bool.andb_true_iff, fold_iff, !N.eqb_eq. split.
    + intros [[H1 H2] H3] x' l0 [= <- <-]. exists y, l'. auto.
    + intros H. destruct (H x l eq_refl) as (y' & l'' & [= <- <-] & H1 & H2 & H3). auto.
Qed.
Lemma replayable n : isReplayableOpcode n = true <-> n = 0 \/ n = 4.
Proof. unfold isReplayableOpcode. rewrite Bool.orb_true_iff, !N.eqb_eq. reflexivity. Qed.
Lemma plain_parts m req : exists l, changed m (set_reply m req) ([(PtId, VNum (m_id req)); (PtResponse, VBit true); (PtOpcode, VNum (m_opcode req)); (PtRcode, VNum 0)] ++ l) /\
  forall p v, In (p, v) l <-> v = at_part p req /\ (m_opcode req = 0 /\ (p = PtRD \/ p = PtCD)) \/ p = PtQuestion /\ exists x r, m_question req = x :: r /\ v = VQs [x].
Proof. exact (reply_parts m req 0). Qed.
