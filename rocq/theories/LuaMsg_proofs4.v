(** Whole scripts: the store stays well formed and references stay good *)
From Verif Require Import Base Bytes Dns LuaVal_model LuaVal_proofs LuaRR_model LuaRR_spec LuaRR_proofs LuaMsg_model LuaMsg_spec LuaMsg_proofs LuaMsg_proofs2 LuaMsg_proofs3.
From Coq Require Import Lia.
Local Open Scope nat_scope.

Definition msg_ok (h : store) (m : gmsg) : Prop :=
  (g_id m < 2 ^ 16)%N /\ (- 2 ^ 63 <= g_rcode m < 2 ^ 63)%Z /\ g_question m < length (arrays h) /\ Forall (fun o => o < length (records h)) (g_answer m ++ g_ns m ++ g_extra m).
Definition kept (h h' : store) : Prop := forall r, ref_ok h r -> ref_ok h' r.

Lemma put_map {A B} (f : A -> B) i x l : map f (put_nth i x l) = put_nth i (f x) (map f l).
Proof. revert i. induction l as [|y l IH]; intros [|i]; cbn; [reflexivity..|]. f_equal. apply IH. Qed.
Lemma put_id {A} i (x : A) l : nth_error l i = Some x -> put_nth i x l = l.
Proof. revert i. induction l as [|y l IH]; intros [|i] H; cbn in *; try discriminate; [congruence|]. f_equal. apply IH, H. Qed.
Lemma in_put {A} i (x y : A) l : In y (put_nth i x l) -> y = x \/ In y l.
Proof. revert i. induction l as [|z l IH]; intros [|i] H; cbn in *; try tauto; destruct H as [<-|H]; auto. destruct (IH i H); auto. Qed.
Lemma nodup_put {A} i (x : A) l : NoDup l -> ~ In x l \/ nth_error l i = Some x -> NoDup (put_nth i x l).
Proof.
  intros D [N|E]; [|rewrite put_id; assumption]. revert i N. induction D as [|y l Y D IH]; intros [|i] N; cbn in *; constructor; auto.
  intros H. destruct (in_put _ _ _ _ H) as [->|]; auto.
Qed.
Lemma kept_refl h : kept h h.
Proof. intros r H. exact H. Qed.
Lemma kept_by h h' : length (msgs h) <= length (msgs h') -> length (records h) <= length (records h') ->
  (forall a i, question_at h a i <> None -> question_at h' a i <> None) -> kept h h'.
Proof. intros M R Q0 [a|a i|a|a|]; cbn; intros H; [lia|apply Q0, H|lia|exact I|exact I]. Qed.
Lemma grown_kept h h' : grown h h' -> kept h h'.
Proof.
  intros G. apply kept_by.
  - rewrite (grown_msgs _ _ G). lia.
  - destruct (grown_records _ _ G) as (l & ->). rewrite app_length. lia.
  - intros a i H. destruct (question_at h a i) as [q|] eqn:E; [|congruence]. rewrite (grown_at _ _ _ _ _ G E). discriminate.
Qed.
Lemma with_msg_kept a m h : kept h (with_msg a m h).
Proof. apply kept_by; cbn; [rewrite len_put; lia|lia|tauto]. Qed.
Lemma kept_trans a b c : kept a b -> kept b c -> kept a c.
Proof. intros F G r H. apply G, F, H. Qed.

Lemma msg_grown h h' m : grown h h' -> msg_ok h m -> msg_ok h' m.
Proof.
  intros G (A & B & C & D). split; [exact A|]. split; [exact B|]. split.
  - destruct (grown_arrays _ _ G) as (l & ->). rewrite app_length. lia.
  - destruct (grown_records _ _ G) as (l & ->). eapply Forall_impl, D. cbn. intros o H. rewrite app_length. lia.
Qed.
Lemma ok_grown h h' : store_ok h -> grown h h' -> Forall (Forall (fun q => q_type q < 2 ^ 16 /\ q_class q < 2 ^ 16)%N) (arrays h') -> Forall record_ok (records h') -> store_ok h'.
Proof.
  intros OK G A R. constructor; [|exact A| |exact R]; rewrite (grown_msgs _ _ G).
  - eapply Forall_impl, (ok_msgs h OK). intros m. apply msg_grown, G.
  - apply (ok_separate h OK).
Qed.
Lemma ok_alloc h l : store_ok h -> Forall (fun q => q_type q < 2 ^ 16 /\ q_class q < 2 ^ 16)%N l -> store_ok (fst (alloc l h)).
Proof.
  intros OK L. apply (ok_grown h); [exact OK|apply grown_alloc| |exact (ok_records h OK)]. cbn. apply Forall_app. split; [exact (ok_questions h OK)|constructor; [exact L|constructor]].
Qed.
Lemma ok_alloc_record h r : store_ok h -> record_ok r -> store_ok (fst (alloc_record r h)).
Proof.
  intros OK L. apply (ok_grown h); [exact OK|apply grown_record|exact (ok_questions h OK)|]. cbn. apply Forall_app. split; [exact (ok_records h OK)|constructor; [exact L|constructor]].
Qed.
Lemma ok_put h a m m' : store_ok h -> nth_error (msgs h) a = Some m -> msg_ok h m' ->
  (g_question m' = g_question m \/ ~ In (g_question m') (map g_question (msgs h))) -> store_ok (with_msg a m' h).
Proof.
  intros OK E M D. constructor; cbn [with_msg msgs arrays records]; [|exact (ok_questions h OK)| |exact (ok_records h OK)].
  - apply Forall_put; [exact (ok_msgs h OK)|exact M].
  - rewrite put_map. apply nodup_put; [exact (ok_separate h OK)|]. destruct D as [D|D]; [right|left; exact D]. rewrite nth_error_map, E. cbn. congruence.
Qed.
Lemma fresh h : store_ok h -> ~ In (length (arrays h)) (map g_question (msgs h)).
Proof.
  intros OK H. apply in_map_iff in H. destruct H as (m & E & I). pose proof (ok_msgs h OK) as F. rewrite Forall_forall in F. destruct (F m I) as (_ & _ & L & _). lia.
Qed.
(** A message gets new questions. *)
Lemma ok_asked h a m m' l : store_ok h -> nth_error (msgs h) a = Some m -> Forall (fun q => q_type q < 2 ^ 16 /\ q_class q < 2 ^ 16)%N l ->
  g_question m' = length (arrays h) -> (g_id m' < 2 ^ 16)%N -> (- 2 ^ 63 <= g_rcode m' < 2 ^ 63)%Z -> Forall (fun o => o < length (records h)) (g_answer m' ++ g_ns m' ++ g_extra m') ->
  store_ok (with_msg a m' (fst (alloc l h))) /\ kept h (with_msg a m' (fst (alloc l h))).
Proof.
  intros OK E L Q0 I R S. split.
  - apply ok_put with (m := m); [apply ok_alloc; assumption|exact E| |right; cbn; rewrite Q0; apply fresh, OK].
    split; [exact I|]. split; [exact R|]. split; [cbn; rewrite app_length, Q0; cbn; lia|exact S].
  - eapply kept_trans; [apply grown_kept, grown_alloc|apply with_msg_kept].
Qed.

Section Lua.
Variable far : N -> num -> N.
Variable parseNumber : string -> option num.
Variable numberText : num -> string.
Variable ipString : bytes -> string.
Variable parseIP : string -> option bytes.
Notation step := (step far parseNumber numberText ipString parseIP).

Lemma question_small h a i q : store_ok h -> question_at h a i = Some q -> (q_type q < 2 ^ 16 /\ q_class q < 2 ^ 16)%N.
Proof.
  intros OK E. destruct (at_bound _ _ _ _ E) as [A _]. pose proof (ok_questions h OK) as F. rewrite Forall_forall in F.
  specialize (F (nth a (arrays h) []) (nth_In _ _ A)). rewrite Forall_forall in F. apply F. eapply nth_error_In, E.
Qed.
Lemma records_made h known l os : Forall (ref_ok h) known -> made_of known (LTab l) -> rrElements l = Some os -> Forall (fun o => o < length (records h)) os.
Proof.
  intros K M R. apply records_iff in R. assert (M' : incl (flat_map refs_of l) known) by exact M. clear M. induction R as [|o v os l E R IH]; constructor.
  - rewrite E in M'. rewrite Forall_forall in K. apply (K (RRecord o)). apply M'. left. reflexivity.
  - apply IH. intros r H. apply M'. cbn. apply in_app_iff. right. exact H.
Qed.
Lemma set_ok h known a name v h' b : store_ok h -> Forall (ref_ok h) known -> made_of known v -> setMsg far h a name v = (h', b) -> store_ok h' /\ kept h h'.
Proof.
  intros OK K M. destruct b; [|intros H; apply refused in H; subst; split; [exact OK|apply kept_refl]].
  unfold setMsg. destruct (nth_error (msgs h) a) as [m|] eqn:E; [|discriminate]. destruct (msg_in h a m OK E) as (I & RC & QB & RB).
  assert (S : forall m', g_question m' = g_question m -> msg_ok h m' -> store_ok (with_msg a m' h) /\ kept h (with_msg a m' h)).
  { intros m' EQ MO. split; [eapply ok_put; eauto|apply with_msg_kept]. }
  destruct m as [id response opcode aa tc rd ra ad cd rcode question answer ns extra]. cbn in I, RC, QB, RB. cbv zeta.
  apply Forall_app in RB. destruct RB as [RA RB]. apply Forall_app in RB. destruct RB as [RN RE].
  repeat match goal with |- context [String.eqb name ?x] => destruct (String.eqb name x) end; try discriminate;
    try (destruct (checkBool v); [|discriminate]; intros [= <-]; apply S; [reflexivity|]; split; [exact I|]; split; [exact RC|]; split; [exact QB|cbn; apply Forall_app; split; [exact RA|apply Forall_app; split; assumption]]).
  - destruct v as [| | | |l| |]; try discriminate. destruct (questionElements h l) as [qs|] eqn:Q0; [|discriminate]. intros H.
    assert (QS : Forall (fun q => q_type q < 2 ^ 16 /\ q_class q < 2 ^ 16)%N qs).
    { apply questions_iff in Q0. clear - Q0 OK. induction Q0 as [|q v qs l (x & i & _ & A) Q0 IH]; constructor; [eapply question_small; eauto|exact IH]. }
    cbn [alloc] in H. injection H as <-.
    apply (ok_asked h a (GMsg id response opcode aa tc rd ra ad cd rcode question answer ns extra) (GMsg id response opcode aa tc rd ra ad cd rcode (length (arrays h)) answer ns extra) qs);
      [exact OK|exact E|exact QS|reflexivity|exact I|exact RC|cbn; apply Forall_app; split; [exact RA|apply Forall_app; split; assumption]].
  - destruct (checkInt far v) as [z|]; [|discriminate]. intros [= <-]. apply S; [reflexivity|]. split; [|split; [exact RC|]; split; [exact QB|cbn; apply Forall_app; split; [exact RA|apply Forall_app; split; assumption]]].
    cbn [g_id]. pose proof (Z.mod_pos_bound z (2 ^ 16) ltac:(lia)) as B. apply N2Z.inj_lt. rewrite Z2N.id by lia. change (Z.of_N (2 ^ 16)) with (2 ^ 16)%Z. lia.
  - destruct v as [| |x| | | |]; try discriminate. cbn [checkInt]. intros [= <-]. apply S; [reflexivity|]. split; [exact I|].
    split; [apply int64_bound|].
    split; [exact QB|cbn; apply Forall_app; split; [exact RA|apply Forall_app; split; assumption]].
  - destruct v as [| | | |l| |]; try discriminate. cbn [tableToRRSlice]. destruct (rrElements l) as [os|] eqn:R; [|discriminate]. intros [= <-]. apply S; [reflexivity|].
    split; [exact I|]. split; [exact RC|]. split; [exact QB|cbn; apply Forall_app; split; [eapply records_made; eauto|apply Forall_app; split; assumption]].
  - destruct v as [| | | |l| |]; try discriminate. cbn [tableToRRSlice]. destruct (rrElements l) as [os|] eqn:R; [|discriminate]. intros [= <-]. apply S; [reflexivity|].
    split; [exact I|]. split; [exact RC|]. split; [exact QB|cbn; apply Forall_app; split; [exact RA|apply Forall_app; split; [eapply records_made; eauto|assumption]]].
  - destruct v as [| | | |l| |]; try discriminate. cbn [tableToRRSlice]. destruct (rrElements l) as [os|] eqn:R; [|discriminate]. intros [= <-]. apply S; [reflexivity|].
    split; [exact I|]. split; [exact RC|]. split; [exact QB|cbn; apply Forall_app; split; [exact RA|apply Forall_app; split; [assumption|eapply records_made; eauto]]].
Qed.
Lemma get_ok h a name v : store_ok h -> getMsg h a name = Some v -> Forall (ref_ok h) (refs_of v).
Proof.
  intros OK G. assert (L : a < length (msgs h)) by (unfold getMsg in G; destruct (nth_error (msgs h) a) eqn:E; [eapply bound, E|discriminate]).
  pose proof (read h a name OK L) as R. rewrite G in R. destruct R as [(p & w & _ & P & S)|[_ ->]]; [|constructor].
  destruct S as [z x D|b|qs l F|os l F]; [constructor|constructor| |].
  - clear P G. cbn. induction F as [|q u qs l (b & i & -> & A) F IH]; cbn; [constructor|]. constructor; [cbn; congruence|exact IH].
  - rewrite part_mpart in P. destruct (nth_error (msgs h) a) as [m|] eqn:E; [|discriminate]. destruct (msg_in h a m OK E) as (_ & _ & _ & B).
    assert (OB : Forall (fun o => o < length (records h)) os).
    { apply Forall_app in B. destruct B as [B1 B]. apply Forall_app in B. destruct B as [B2 B3]. cbn in P. destruct p; cbn in P; congruence. }
    clear P G. cbn. induction F as [|o u os l -> F IH]; cbn; [constructor|]. inversion OB; subst. constructor; [assumption|]. apply IH. assumption.
Qed.
Lemma options_refs h l : Forall (ref_ok h) (flat_map refs_of (map (fun o => LUser (ROption o)) l)).
Proof. induction l; cbn; constructor; [exact I|assumption]. Qed.
Lemma plain_refs h (l : list lval) : (forall v, In v l -> refs_of v = []) -> Forall (ref_ok h) (flat_map refs_of l).
Proof. intros H. induction l as [|v l IH]; cbn; [constructor|]. rewrite (H v (or_introl eq_refl)). apply IH. intros w I. apply H. right. exact I. Qed.
Lemma field_refs h r name v : get ipString r name = Some v -> Forall (ref_ok h) (refs_of v).
Proof.
  unfold get. repeat match goal with |- context [String.eqb name ?x] => destruct (String.eqb name x); [intros H; injection H as <-; apply Forall_nil|] end.
  destruct (find_field name (rrDB (rr_type r))) as [[index k]|]; [|discriminate]. destruct (fieldByIndex (rr_vals r) index) as [x|]; [|discriminate].
  destruct k, x as [|[ip|]| | | | | | | | | |]; cbn; intros [= <-]; try constructor; cbn.
  - apply plain_refs. intros v H. apply in_map_iff in H. destruct H as (n & <- & _). reflexivity.
  - apply plain_refs. intros v H. apply in_map_iff in H. destruct H as (n & <- & _). reflexivity.
  - apply options_refs.
Qed.
Lemma opt_refs h r name v : getOPT r name = Some v -> Forall (ref_ok h) (refs_of v).
Proof.
  unfold getOPT. destruct (negb (isOPT r)); [discriminate|].
  repeat match goal with |- context [String.eqb name ?x] => destruct (String.eqb name x); try solve [intros H; injection H as <-; apply Forall_nil] end; [|discriminate].
  destruct (rr_vals r) as [|v0 [|[] [|v2 vs]]]; try discriminate. intros [= <-]. apply options_refs.
Qed.
Lemma ok_record h o r r' : store_ok h -> nth_error (records h) o = Some r -> record_ok r' -> store_ok (with_record o r' h) /\ kept h (with_record o r' h).
Proof.
  intros OK E R. split.
  - constructor; cbn [with_record msgs arrays records]; [|exact (ok_questions h OK)|exact (ok_separate h OK)|apply Forall_put; [exact (ok_records h OK)|exact R]].
    rewrite len_put. exact (ok_msgs h OK).
  - apply kept_by; cbn; [lia|rewrite len_put; lia|tauto].
Qed.
Lemma record_in h o r : store_ok h -> nth_error (records h) o = Some r -> record_ok r.
Proof. intros OK E. pose proof (ok_records h OK) as F. rewrite Forall_forall in F. apply F. eapply nth_error_In, E. Qed.

Lemma step_ok h known o h' res : store_ok h -> Forall (ref_ok h) known -> possible known o -> step h o = (h', res) ->
  store_ok h' /\ kept h h' /\ Forall (ref_ok h') (match res with Some v => refs_of v | None => [] end) /\ (res = None -> h' = h).
Proof.
  intros OK K P. assert (KN : forall r, In r known -> ref_ok h r) by (rewrite Forall_forall in K; exact K).
  destruct o as [|a name|a name v|a b|a id v w|a|a v w|args|a i name|a i name v|args|o name|o name v|o name|o name v]; cbn [step possible] in *.
  - (* new *) cbn [newMsg alloc]. intros [= <- <-].
    assert (K1 : kept h (fst (alloc [] h))) by apply grown_kept, grown_alloc. pose proof (ok_alloc h [] OK ltac:(constructor)) as O1. pose proof (fresh h OK) as F.
    split; [|split; [|split; [|discriminate]]].
    + constructor; cbn [msgs arrays records]; [|exact (ok_questions _ O1)| |exact (ok_records h OK)].
      * apply Forall_app. split; [exact (ok_msgs _ O1)|]. constructor; [|constructor]. cbn. split; [reflexivity|]. split; [lia|]. split; [rewrite app_length; cbn; lia|constructor].
      * rewrite map_app. cbn. apply NoDup_rev in O1 || idtac. rewrite <- (rev_involutive (map g_question (msgs h) ++ _)). apply NoDup_rev. rewrite rev_app_distr. cbn. constructor; [|apply NoDup_rev, (ok_separate h OK)].
        intros H. apply F. rewrite in_rev. exact H.
    + intros r H. apply K1 in H. destruct r; cbn in *; try exact H. rewrite app_length. lia.
    + constructor; [|constructor]. cbn. rewrite app_length. cbn. lia.
  - (* get *) intros [= <- <-]. split; [exact OK|]. split; [apply kept_refl|]. split; [|reflexivity]. destruct (getMsg h a name) eqn:G; [eapply get_ok; eauto|constructor].
  - (* set *) destruct (setMsg far h a name v) as [h1 b] eqn:S. intros [= <- <-]. destruct (set_ok _ _ _ _ _ _ _ OK K (proj2 P) S) as [O1 K1].
    split; [exact O1|]. split; [exact K1|]. destruct b; [split; [constructor|discriminate]|]. split; [constructor|]. intros _. eapply refused, S.
  - (* reply *) intros [= <- <-]. pose proof (KN _ (proj1 P)) as LA. cbn in LA. pose proof (KN _ (proj2 P)) as LB. cbn in LB.
    unfold setReply. destruct (nth_error (msgs h) a) as [m|] eqn:X; [|apply nth_error_None in X; lia]. destruct (nth_error (msgs h) b) as [r|] eqn:Y; [|apply nth_error_None in Y; lia].
    destruct (msg_in h a m OK X) as (I & RC & QB & RB). destruct (msg_in h b r OK Y) as (I' & _ & QB' & _).
    destruct (nth (g_question r) (arrays h) []) as [|q qs] eqn:EQ.
    + match goal with |- store_ok (with_msg a ?m' h) /\ _ => assert (SK : store_ok (with_msg a m' h)) by (apply ok_put with (m := m); [exact OK|exact X|split; [exact I'|]; split; [cbn; lia|]; split; [exact QB|exact RB]|left; reflexivity]) end.
      split; [exact SK|]. split; [apply with_msg_kept|]. split; [|discriminate]. constructor; [|constructor]. cbn. rewrite len_put. exact LA.
    + assert (QQ : Forall (fun q => q_type q < 2 ^ 16 /\ q_class q < 2 ^ 16)%N [q]).
      { constructor; [|constructor]. apply (question_small h (g_question r) 0 q OK). unfold question_at. rewrite EQ. reflexivity. }
      cbn [alloc]. match goal with |- store_ok (with_msg a ?m' _) /\ _ => destruct (ok_asked h a m m' [q] OK X QQ eq_refl I' ltac:(cbn; lia) RB) as [SK KK] end.
      split; [exact SK|]. split; [exact KK|]. split; [|discriminate]. constructor; [|constructor]. cbn. rewrite len_put. exact LA.
  - (* set_question *) destruct (setQuestion far parseNumber numberText h a id v w) as [h1 b] eqn:S. intros [= <- <-]. pose proof (KN _ (proj1 P)) as LA. cbn in LA.
    destruct b; [|apply ask_refused in S; subst; split; [exact OK|]; split; [apply kept_refl|]; split; [constructor|reflexivity]].
    unfold setQuestion in S. destruct (nth_error (msgs h) a) as [m|] eqn:X; [|discriminate]. destruct (msg_in h a m OK X) as (I & RC & QB & RB).
    destruct (checkString numberText v) as [s|]; [|discriminate]. destruct (checkNumber parseNumber w) as [x|]; [|discriminate]. cbn [alloc] in S. injection S as <-.
    match goal with |- store_ok (with_msg a ?m' _) /\ _ => destruct (ok_asked h a m m' [Q s (uint far 16 x) 1] OK X) as [SK KK] end;
      [constructor; [split; [apply uint_bound|reflexivity]|constructor]|reflexivity|exact (proj2 P)|exact RC|exact RB|].
    split; [exact SK|]. split; [exact KK|]. split; [|discriminate]. constructor; [|constructor]. cbn. rewrite len_put. exact LA.
  - (* is_edns0 *) intros [= <- <-]. split; [exact OK|]. split; [apply kept_refl|]. split; [|discriminate]. pose proof (KN _ P) as LA. cbn in LA.
    destruct (nth_error (msgs h) a) as [m|] eqn:X; [|apply nth_error_None in X; lia].
    destruct (is_edns h a (g_extra m)) as [[-> _]|(l1 & o & l2 & _ & -> & (r & R & _) & _)]; [rewrite part_mpart, X; reflexivity|constructor|].
    constructor; [|constructor]. cbn. eapply bound, R.
  - (* set_edns0 *) destruct (setEdns0 far parseNumber h a v w) as [h1 b] eqn:S. intros [= <- <-]. pose proof (KN _ P) as LA. cbn in LA.
    destruct b; [|apply set_edns_refused in S; subst; split; [exact OK|]; split; [apply kept_refl|]; split; [constructor|reflexivity]].
    unfold setEdns0 in S. destruct (nth_error (msgs h) a) as [m|] eqn:X; [|discriminate]. destruct (msg_in h a m OK X) as (I & RC & QB & RB).
    destruct (checkNumber parseNumber v) as [x|] eqn:V; [|discriminate]. destruct (checkBool w) as [b|] eqn:W; [|discriminate]. cbn [alloc_record] in S. injection S as <-.
    set (r := RR _ _ _).
    assert (RO : record_ok r). { apply opt_ok with (v := View (uint far 16 x) 0 0 b 0 []); [|apply uint_bound|reflexivity|reflexivity]. split; [reflexivity|]. split; [reflexivity|]. split; [|reflexivity]. unfold r. destruct b; repeat split. }
    pose proof (ok_alloc_record h r OK RO) as O1.
    match goal with |- store_ok (with_msg a ?m' _) /\ _ => assert (SK : store_ok (with_msg a m' (fst (alloc_record r h)))) end.
    { apply ok_put with (m := m); [exact O1|exact X| |left; reflexivity]. split; [exact I|]. split; [exact RC|]. split; [exact QB|]. cbn. rewrite app_length. cbn.
      rewrite !app_assoc. apply Forall_app. split; [|constructor; [lia|constructor]]. rewrite <- app_assoc. eapply Forall_impl, RB. cbn. intros. lia. }
    split; [exact SK|]. split; [eapply kept_trans; [apply (grown_kept h), grown_record|apply with_msg_kept]|]. split; [|discriminate].
    constructor; [|constructor]. cbn. rewrite len_put. exact LA.
  - (* Question.new *) destruct (newQuestion far parseNumber numberText args) as [q|] eqn:Q0; [|intros [= <- <-]; split; [exact OK|]; split; [apply kept_refl|]; split; [constructor|reflexivity]].
    cbn [alloc]. intros [= <- <-]. destruct (question_new far parseNumber numberText args q Q0) as (_ & T & C).
    assert (QQ : Forall (fun q => q_type q < 2 ^ 16 /\ q_class q < 2 ^ 16)%N [q]).
    { constructor; [|constructor]. split.
      - destruct args as [|? [|? ?]]; [rewrite T; reflexivity..|]. destruct T as (? & _ & B & _). exact B.
      - destruct args as [|? [|? [|? ?]]]; [rewrite C; reflexivity..|]. destruct C as (? & _ & B & _). exact B. }
    split; [exact (ok_alloc h [q] OK QQ)|]. split; [exact (grown_kept _ _ (grown_alloc [q] h))|]. split; [|discriminate].
    constructor; [|constructor]. cbn. unfold question_at. cbn. rewrite app_nth2, Nat.sub_diag by lia. discriminate.
  - (* question get *) intros [= <- <-]. split; [exact OK|]. split; [apply kept_refl|]. split; [|reflexivity]. unfold getQuestion. destruct (deref_question h a i); [|constructor].
    repeat match goal with |- context [String.eqb name ?x] => destruct (String.eqb name x) end; constructor.
  - (* question set *) destruct (setQuestionField far parseNumber numberText h a i name v) as [h1 b] eqn:S. intros [= <- <-].
    destruct b; [|apply qset_refused in S; subst; split; [exact OK|]; split; [apply kept_refl|]; split; [constructor|reflexivity]].
    destruct (qset _ _ _ _ _ _ _ _ _ S) as (q & q' & E & _ & -> & B). specialize (B (question_small _ _ _ _ OK E)). destruct (at_bound _ _ _ _ E) as [LA LI].
    split; [|split; [|split; [constructor|discriminate]]].
    + constructor; unfold rewritten; cbn [with_array msgs arrays records]; [rewrite len_put; exact (ok_msgs h OK)| |exact (ok_separate h OK)|exact (ok_records h OK)].
      apply Forall_put; [exact (ok_questions h OK)|]. apply Forall_put; [|exact B]. pose proof (ok_questions h OK) as F. rewrite Forall_forall in F. apply F, nth_In, LA.
    + apply kept_by; [cbn; lia|cbn; lia|]. intros c j H. rewrite (rewritten_at _ _ _ _ _ _ _ E). destruct ((a =? c) && (i =? j)); [discriminate|exact H].
  - (* OPT.new *) destruct (newOPT far parseNumber args) as [r|] eqn:E; [|intros [= <- <-]; split; [exact OK|]; split; [apply kept_refl|]; split; [constructor|reflexivity]].
    cbn [alloc_record]. intros [= <- <-]. destruct (opt_new _ _ _ _ E) as (n & b & V & _ & T & L & B & _).
    assert (RO : record_ok r) by (apply opt_ok with (v := View n 0 0 b 0 []); [exact V|exact B|rewrite T; reflexivity|rewrite L; reflexivity]).
    split; [exact (ok_alloc_record h r OK RO)|]. split; [exact (grown_kept _ _ (grown_record r h))|]. split; [|discriminate]. constructor; [|constructor]. cbn. rewrite app_length. cbn. lia.
  - (* OPT get *) intros [= <- <-]. split; [exact OK|]. split; [apply kept_refl|]. split; [|reflexivity]. destruct (nth_error (records h) o) as [r|]; [|constructor].
    destruct (getOPT r name) eqn:G; [eapply opt_refs, G|constructor].
  - (* OPT set *) destruct (nth_error (records h) o) as [r|] eqn:E; [|intros [= <- <-]; split; [exact OK|]; split; [apply kept_refl|]; split; [constructor|reflexivity]].
    destruct (setOPT far parseNumber r name v) as [r' b] eqn:S. intros [= <- <-]. pose proof (record_in h o r OK E) as RO. destruct b.
    + assert (O : is_opt r). { apply opt_iff. unfold setOPT in S. destruct (isOPT r); [reflexivity|discriminate]. }
      destruct (opt_view r RO O) as (view & VW). destruct (opt_write _ _ _ _ _ _ _ VW S) as (view' & VW' & _ & B & _ & T & L).
      destruct RO as (_ & _ & T0 & C0 & _ & L0). destruct (ok_record h o r r' OK E) as [SK KK].
      { apply opt_ok with (v := view'); [exact VW'| |rewrite T; exact T0|rewrite L; exact L0]. apply B. destruct VW as (_ & <- & _). exact C0. }
      split; [exact SK|]. split; [exact KK|]. split; [constructor|discriminate].
    + apply opt_refused in S. subst r'. destruct (ok_record h o r r OK E RO) as [SK KK]. split; [exact SK|]. split; [exact KK|]. split; [constructor|].
      intros _. destruct h. unfold with_record. cbn in *. rewrite put_id by exact E. reflexivity.
  - (* record get *) intros [= <- <-]. split; [exact OK|]. split; [apply kept_refl|]. split; [|reflexivity]. destruct (nth_error (records h) o) as [r|]; [|constructor].
    destruct (get ipString r name) eqn:G; [eapply field_refs, G|constructor].
  - (* record set *) destruct (nth_error (records h) o) as [r|] eqn:E; [|intros [= <- <-]; split; [exact OK|]; split; [apply kept_refl|]; split; [constructor|reflexivity]].
    destruct (newindex far parseIP r name v) as [r' b] eqn:S. intros [= <- <-]. pose proof (record_in h o r OK E) as RO. destruct b.
    + destruct (newindex_assigned far parseIP r name v r' RO S) as [_ RO']. destruct (ok_record h o r r' OK E RO') as [SK KK].
      split; [exact SK|]. split; [exact KK|]. split; [constructor|discriminate].
    + apply newindex_refused in S. subst r'. destruct (ok_record h o r r OK E RO) as [SK KK]. split; [exact SK|]. split; [exact KK|]. split; [constructor|].
      intros _. destruct h. unfold with_record. cbn in *. rewrite put_id by exact E. reflexivity.
Qed.
Lemma script_ok h known h' known' : script step h known h' known' -> store_ok h -> Forall (ref_ok h) known ->
  store_ok h' /\ Forall (ref_ok h') known' /\ forall r, ref_ok h r -> ref_ok h' r.
Proof.
  induction 1 as [h k|h k o h1 res h2 k2 P N S IH]; intros OK K; [split; [exact OK|]; split; [exact K|tauto]|].
  destruct (step_ok h k o h1 res OK K P N) as (O1 & K1 & R1 & _). destruct IH as (O2 & K2 & R2); [exact O1| |].
  - apply Forall_app. split; [eapply Forall_impl, K; exact K1|exact R1].
  - split; [exact O2|]. split; [exact K2|]. intros r H. apply R2, K1, H.
Qed.
End Lua.

Lemma step_errors far parseNumber numberText ipString parseIP h known o h' : store_ok h -> Forall (ref_ok h) known -> possible known o ->
  step far parseNumber numberText ipString parseIP h o = (h', None) -> h' = h.
Proof. intros OK K P S. destruct (step_ok far parseNumber numberText ipString parseIP h known o h' None OK K P S) as (_ & _ & _ & E). apply E. reflexivity. Qed.
Definition badcookie : rr := RR (Hdr "." 41 1232 0 0) optType [VHdr; VEdns []].
Lemma badcookie_is : opt_is badcookie (View 1232 0 0 false 0 []).
Proof. repeat split. Qed.
Lemma badcookie_ok : record_ok badcookie.
Proof. exact (opt_ok badcookie _ badcookie_is eq_refl eq_refl eq_refl). Qed.
Lemma rcode_refuted : ~ forall far parseNumber r x z r', record_ok r -> is_opt r -> denotes x z -> (0 <= z < 2 ^ 12)%Z -> setOPT far parseNumber r "extended_rcode" (LNum x) = (r', true) ->
  exists y, getOPT r' "extended_rcode" = Some (LNum y) /\ denotes y z.
Proof.
  intros H. destruct (H (fun _ _ => 0%N) (fun _ => None) badcookie (Fin 23 0) 23%Z (RR (Hdr "." 41 1232 16777216 0) optType [VHdr; VEdns []])
    badcookie_ok eq_refl (denotes_int 23) ltac:(lia) eq_refl) as (y & G & D).
  assert (E : y = Fin 16 0) by (cbv in G; congruence). subst y. pose proof (denotes_fun _ _ _ D (denotes_int 16)). discriminate.
Qed.
