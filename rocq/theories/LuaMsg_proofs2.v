(** Proofs about questions, OPT records and whole scripts *)
From Verif Require Import Base Bytes Dns LuaVal_model LuaVal_proofs LuaRR_model LuaRR_spec LuaRR_proofs LuaMsg_model LuaMsg_spec LuaMsg_proofs.
From Coq Require Import Lia.
Local Open Scope nat_scope.

Section Lua.
Variable far : N -> num -> N.
Variable parseNumber : string -> option num.
Variable numberText : num -> string.
Notation checkNumber := (checkNumber parseNumber).
Notation checkString := (checkString numberText).

Lemma number_iff v x : checkNumber v = Some x <-> number_of parseNumber v x.
Proof.
  unfold checkNumber, number_of. split.
  - destruct v; intros H; try discriminate; [injection H as <-; left; reflexivity|right; eauto].
  - intros [->|(s & -> & H)]; [reflexivity|exact H].
Qed.
Lemma text_iff v s : checkString v = Some s <-> text_of numberText v s.
Proof.
  unfold checkString, text_of. split.
  - destruct v; intros H; try discriminate; [injection H as <-; right; eauto|injection H as <-; left; reflexivity].
  - intros [->|(x & -> & <-)]; reflexivity.
Qed.

(** ** Questions *)
Lemma at_bound h a i q : question_at h a i = Some q -> a < length (arrays h) /\ i < length (nth a (arrays h) []).
Proof.
  unfold question_at. intros H. split; [|eapply bound, H]. destruct (Nat.lt_ge_cases a (length (arrays h))); [assumption|].
  rewrite nth_overflow in H by assumption. destruct i; discriminate.
Qed.
Lemma nth_put {A} a b (x d : A) l : a < length l -> nth b (put_nth a x l) d = if a =? b then x else nth b l d.
Proof.
  intros L. destruct (Nat.eqb_spec a b) as [<-|D].
  - apply nth_nth, put_same, L.
  - destruct (nth_error l b) as [y|] eqn:E.
    + rewrite (nth_nth l b d y E). apply nth_nth. rewrite put_other by exact D. exact E.
    + apply nth_error_None in E. rewrite !nth_overflow; [reflexivity|exact E|rewrite len_put; exact E].
Qed.
Lemma put_cut {A} i (x : A) l : i < length l -> put_nth i x l = firstn i l ++ x :: skipn (S i) l.
Proof. revert i. induction l as [|y l IH]; intros [|i] H; cbn in *; [lia|lia|reflexivity|]. f_equal. rewrite IH by lia. reflexivity. Qed.

Definition rewritten (h : store) (a i : nat) (q' : question) : store := with_array a (put_nth i q' (nth a (arrays h) [])) h.
Lemma qset h a i name v h' : setQuestionField far parseNumber numberText h a i name v = (h', true) ->
  exists q q', question_at h a i = Some q /\ question_assigned parseNumber numberText q q' name v /\ h' = rewritten h a i q' /\
    ((q_type q < 2 ^ 16 /\ q_class q < 2 ^ 16)%N -> (q_type q' < 2 ^ 16 /\ q_class q' < 2 ^ 16)%N).
Proof.
  unfold setQuestionField. rewrite deref_at. destruct (question_at h a i) as [q|] eqn:E; [|discriminate].
  destruct (String.eqb_spec name "name") as [->|_].
  { destruct (checkString v) as [s|] eqn:V; [|discriminate]. intros [= <-]. exists q. eexists. split; [reflexivity|]. split; [|split; [reflexivity|tauto]].
    econstructor; [apply text_iff, V|reflexivity]. }
  destruct (String.eqb_spec name "qtype") as [->|_].
  { destruct (checkNumber v) as [x|] eqn:V; [|discriminate]. intros [= <-]. exists q. eexists. split; [reflexivity|]. split; [|split; [reflexivity|]].
    - eapply assigned_qtype; [apply number_iff, V|apply uint_stores|reflexivity].
    - intros [_ C]. split; [apply uint_bound|exact C]. }
  destruct (String.eqb_spec name "qclass") as [->|_]; [|discriminate].
  destruct (checkNumber v) as [x|] eqn:V; [|discriminate]. intros [= <-]. exists q. eexists. split; [reflexivity|]. split; [|split; [reflexivity|]].
  - eapply assigned_qclass; [apply number_iff, V|apply uint_stores|reflexivity].
  - intros [T _]. split; [exact T|apply uint_bound].
Qed.
Lemma qset_iff h a i name v : ref_ok h (RQuestion a i) ->
  (snd (setQuestionField far parseNumber numberText h a i name v) = true <->
   name = "name"%string /\ (exists s, text_of numberText v s) \/ (name = "qtype"%string \/ name = "qclass"%string) /\ exists x, number_of parseNumber v x).
Proof.
  intros R. cbn in R. split.
  - intros H. destruct (setQuestionField far parseNumber numberText h a i name v) as [h' b] eqn:E. cbn in H. subst b.
    destruct (qset h a i name v h' E) as (q & q' & _ & A & _). destruct A; eauto 6.
  - unfold setQuestionField. rewrite deref_at. destruct (question_at h a i) as [q|]; [|congruence].
    intros [[-> (s & T)]|[[->| ->] (x & N)]]; cbn [String.eqb Ascii.eqb Bool.eqb].
    + apply text_iff in T. rewrite T. reflexivity.
    + apply number_iff in N. rewrite N. reflexivity.
    + apply number_iff in N. rewrite N. reflexivity.
Qed.
Lemma qset_refused h a i name v h' : setQuestionField far parseNumber numberText h a i name v = (h', false) -> h' = h.
Proof.
  unfold setQuestionField. destruct (deref_question h a i); [|congruence]. cbv zeta.
  repeat match goal with |- context [String.eqb name ?x] => destruct (String.eqb name x) end; [destruct (checkString v)|destruct (checkNumber v)..|]; congruence.
Qed.
Lemma rewritten_at h a i q q' b j : question_at h a i = Some q ->
  question_at (rewritten h a i q') b j = if (a =? b) && (i =? j) then Some q' else question_at h b j.
Proof.
  intros E. destruct (at_bound _ _ _ _ E) as [A I]. unfold question_at, rewritten. cbn [with_array arrays]. rewrite nth_put by exact A.
  destruct (Nat.eqb_spec a b) as [<-|D]; cbn [andb]; [|reflexivity].
  destruct (Nat.eqb_spec i j) as [<-|J]; [apply put_same, I|apply put_other, J].
Qed.
Lemma rewritten_part h a i q q' m p : question_at h a i = Some q ->
  (forall x, p = PQuestions -> nth_error (msgs h) m = Some x -> g_question x <> a) -> part_of (rewritten h a i q') m p = part_of h m p.
Proof.
  intros E H. destruct (at_bound _ _ _ _ E) as [A _]. rewrite !part_mpart. unfold rewritten. cbn [with_array msgs arrays].
  destruct (nth_error (msgs h) m) as [x|] eqn:X; [|reflexivity]. cbn. f_equal. destruct p; try reflexivity. cbn. f_equal.
  rewrite nth_put by exact A. destruct (Nat.eqb_spec a (g_question x)) as [->|_]; [|reflexivity]. exfalso. exact (H x eq_refl eq_refl eq_refl).
Qed.
Lemma separate h a b x y : store_ok h -> nth_error (msgs h) a = Some x -> nth_error (msgs h) b = Some y -> g_question x = g_question y -> a = b.
Proof.
  intros OK X Y E. pose proof (ok_separate h OK) as D. rewrite NoDup_nth_error in D. apply D.
  - rewrite map_length. eapply bound, X.
  - rewrite !nth_error_map, X, Y. cbn. congruence.
Qed.

Lemma question_write h a i name v h' : setQuestionField far parseNumber numberText h a i name v = (h', true) ->
  exists q q', question_at h a i = Some q /\ question_assigned parseNumber numberText q q' name v /\ question_at h' a i = Some q' /\
    (forall b j, (b, j) <> (a, i) -> question_at h' b j = question_at h b j) /\
    (forall m p, p <> PQuestions -> part_of h' m p = part_of h m p) /\ records h' = records h.
Proof.
  intros H. destruct (qset _ _ _ _ _ _ H) as (q & q' & E & A & -> & _). exists q, q'. split; [exact E|]. split; [exact A|].
  split; [rewrite (rewritten_at _ _ _ _ _ _ _ E), !Nat.eqb_refl; reflexivity|]. split; [|split; [|reflexivity]].
  - intros b j N. rewrite (rewritten_at _ _ _ _ _ _ _ E). destruct (Nat.eqb_spec a b) as [<-|]; [|reflexivity]. destruct (Nat.eqb_spec i j) as [<-|]; [congruence|reflexivity].
  - intros m p N. apply (rewritten_part _ _ _ _ _ _ _ E). intros x ->. congruence.
Qed.
Lemma question_through h m l k a i name v h' : store_ok h -> getMsg h m "questions" = Some (LTab l) -> nth_error l k = Some (LUser (RQuestion a i)) ->
  setQuestionField far parseNumber numberText h a i name v = (h', true) ->
  exists qs q q', part_of h m PQuestions = Some (PQs qs) /\ nth_error qs k = Some q /\ question_assigned parseNumber numberText q q' name v /\
    part_of h' m PQuestions = Some (PQs (firstn k qs ++ q' :: skipn (S k) qs)) /\
    forall m' p, m' <> m \/ p <> PQuestions -> part_of h' m' p = part_of h m' p.
Proof.
  intros OK G K H. unfold getMsg in G. destruct (nth_error (msgs h) m) as [x|] eqn:X; [|discriminate]. cbn [String.eqb Ascii.eqb Bool.eqb] in G.
  injection G as <-. rewrite nth_error_map in K. destruct (nth_error (seq 0 _) k) as [k'|] eqn:S; [|discriminate]. cbn in K. injection K as EA EI.
  assert (k' = k).
  { pose proof (bound _ _ _ S) as L. rewrite seq_length in L. apply nth_nth with (d := 0) in S. rewrite seq_nth in S by exact L. cbn in S. congruence. }
  subst k' k a. destruct (qset _ _ _ _ _ _ H) as (q & q' & E & A & -> & _). destruct (at_bound _ _ _ _ E) as [LA LI].
  exists (nth (g_question x) (arrays h) []), q, q'. split; [rewrite part_mpart, X; reflexivity|]. split; [exact E|]. split; [exact A|]. split.
  - rewrite part_mpart. unfold rewritten. cbn [with_array msgs arrays]. rewrite X. cbn. rewrite nth_put, Nat.eqb_refl by exact LA. rewrite put_cut by exact LI. reflexivity.
  - intros m' p D. apply (rewritten_part _ _ _ _ _ _ _ E). intros y P Y EQ. destruct D as [D|D]; [|congruence]. apply D. symmetry. apply (separate h m m' x y OK X Y). congruence.
Qed.
Lemma stale h a v h1 b i name w h2 r : store_ok h -> setMsg far h a "questions" v = (h1, true) -> ref_ok h (RQuestion b i) ->
  setQuestionField far parseNumber numberText h1 b i name w = (h2, r) -> forall p, part_of h2 a p = part_of h1 a p.
Proof.
  intros OK S R H p. destruct r; [|apply qset_refused in H; subst; reflexivity].
  destruct (qset _ _ _ _ _ _ H) as (q & q' & E & _ & -> & _). apply (rewritten_part _ _ _ _ _ _ _ E). intros y _ Y EQ.
  unfold setMsg in S. destruct (nth_error (msgs h) a) as [[]|] eqn:X; [|discriminate]. cbn [String.eqb Ascii.eqb Bool.eqb] in S.
  destruct v as [| | | |l| |]; try discriminate. destruct (questionElements h l) as [qs|]; [|discriminate]. cbn [alloc] in S. injection S as <-.
  cbn [with_msg msgs] in Y. rewrite put_same in Y by (eapply bound, X). injection Y as <-. cbn in EQ. subst b.
  cbn in R. apply R. unfold question_at. rewrite nth_overflow by lia. destruct i; reflexivity.
Qed.
Lemma question_read h a i q : store_ok h -> question_at h a i = Some q ->
  (exists t c, getQuestion h a i "name" = Some (LStr (q_name q)) /\ getQuestion h a i "qtype" = Some (LNum t) /\ denotes t (Z.of_N (q_type q)) /\
     getQuestion h a i "qclass" = Some (LNum c) /\ denotes c (Z.of_N (q_class q))) /\
  forall name, ~ In name ["name"; "qtype"; "qclass"]%string -> getQuestion h a i name = None.
Proof.
  intros OK E. assert (B : (q_type q < 2 ^ 16 /\ q_class q < 2 ^ 16)%N).
  { destruct (at_bound _ _ _ _ E) as [A _]. pose proof (ok_questions h OK) as F. rewrite Forall_forall in F.
    specialize (F (nth a (arrays h) []) (nth_In _ _ A)). rewrite Forall_forall in F. apply F. eapply nth_error_In, E. }
  unfold getQuestion. rewrite deref_at, E. split.
  - exists (of_uint (q_type q)), (of_uint (q_class q)). cbn [String.eqb Ascii.eqb Bool.eqb].
    split; [reflexivity|]. split; [reflexivity|]. split; [apply (of_uint_small _ 16); [lia|tauto]|]. split; [reflexivity|apply (of_uint_small _ 16); [lia|tauto]].
  - intros name N. repeat match goal with |- context [String.eqb name ?x] => destruct (String.eqb_spec name x) as [->|_]; [exfalso; apply N; cbn; tauto|] end. reflexivity.
Qed.
Lemma question_new args q : newQuestion far parseNumber numberText args = Some q ->
  match args with [] => q_name q = ""%string | v :: _ => text_of numberText v (q_name q) end /\
  match args with _ :: v :: _ => exists x, number_of parseNumber v x /\ stores 16 x (q_type q) | _ => q_type q = 0%N end /\
  match args with _ :: _ :: v :: _ => exists x, number_of parseNumber v x /\ stores 16 x (q_class q) | _ => q_class q = 1%N end.
Proof.
  unfold newQuestion. intros H.
  destruct args as [|n [|t [|c rest]]]; cbn [option_map] in H.
  - injection H as <-. auto.
  - destruct (checkString n) as [s|] eqn:N; [|discriminate]. injection H as <-. split; [apply text_iff, N|]. split; reflexivity.
  - destruct (checkString n) as [s|] eqn:N; [|discriminate]. destruct (checkNumber t) as [x|] eqn:T; [|discriminate]. injection H as <-.
    split; [apply text_iff, N|]. split; [|reflexivity]. exists x. split; [apply number_iff, T|apply uint_stores].
  - destruct (checkString n) as [s|] eqn:N; [|discriminate]. destruct (checkNumber t) as [x|] eqn:T; [|discriminate]. destruct (checkNumber c) as [y|] eqn:C; [|discriminate]. injection H as <-.
    split; [apply text_iff, N|]. split; [exists x; split; [apply number_iff, T|apply uint_stores]|exists y; split; [apply number_iff, C|apply uint_stores]].
Qed.

(** ** Replies and queries *)
Lemma reply h a b : store_ok h -> a < length (msgs h) -> b < length (msgs h) ->
  let h' := setReply h a b in
  part_of h' a PId = part_of h b PId /\ part_of h' a PResponse = Some (PBit true) /\ part_of h' a POpcode = part_of h b POpcode /\ part_of h' a PRcode = Some (PNum 0) /\
  (forall p, In p [PRecursionDesired; PCheckingDisabled] ->
     (part_of h b POpcode = Some (PNum 0) -> part_of h' a p = part_of h b p) /\ (part_of h b POpcode <> Some (PNum 0) -> part_of h' a p = part_of h a p)) /\
  (forall q qs, part_of h b PQuestions = Some (PQs (q :: qs)) -> part_of h' a PQuestions = Some (PQs [q])) /\
  (part_of h b PQuestions = Some (PQs []) -> part_of h' a PQuestions = part_of h a PQuestions) /\
  only_changed h h' a [PId; PResponse; POpcode; PRcode; PRecursionDesired; PCheckingDisabled; PQuestions].
Proof.
  intros OK LA LB. cbv zeta. unfold setReply. destruct (nth_error (msgs h) a) as [m|] eqn:X; [|apply nth_error_None in X; lia].
  destruct (nth_error (msgs h) b) as [r|] eqn:Y; [|apply nth_error_None in Y; lia].
  set (al := match nth (g_question r) (arrays h) [] with x :: _ => alloc [x] h | [] => (h, g_question m) end).
  assert (G : grown h (fst al)) by (unfold al; destruct (nth (g_question r) (arrays h) []); [apply grown_refl|apply grown_alloc]).
  assert (QA : nth (snd al) (arrays (fst al)) [] = match nth (g_question r) (arrays h) [] with x :: _ => [x] | [] => nth (g_question m) (arrays h) [] end).
  { unfold al. destruct (nth (g_question r) (arrays h) []); cbn; [reflexivity|]. rewrite app_nth2, Nat.sub_diag by lia. reflexivity. }
  destruct al as [h1 q]. cbn [fst snd] in *.
  set (m' := GMsg _ _ _ _ _ _ _ _ _ _ _ _ _ _).
  destruct (changed h h1 a m m' [PId; PResponse; POpcode; PRcode; PRecursionDesired; PCheckingDisabled; PQuestions] OK G X) as (C & P).
  { intros p N. destruct p; try reflexivity; exfalso; apply N; cbn; tauto. }
  rewrite !P, !(part_mpart h), X, Y. cbn [mpart option_map m' g_id g_response g_opcode g_rcode g_question]. rewrite QA.
  split; [reflexivity|]. split; [reflexivity|]. split; [reflexivity|]. split; [reflexivity|]. split; [|split; [|split; [|exact C]]].
  - intros p I. rewrite P, !(part_mpart h), X, Y. cbn [option_map mpart].
    destruct I as [<-|[<-|[]]]; cbn [mpart m' g_rd g_cd]; (split; intros H; destruct (Z.eqb_spec (g_opcode r) 0) as [E|E]; try reflexivity; exfalso; congruence).
  - intros q0 qs H. injection H as ->. reflexivity.
  - intros H. injection H as ->. reflexivity.
Qed.
Lemma ask h a id v w h' : store_ok h -> setQuestion far parseNumber numberText h a id v w = (h', true) ->
  exists s x n, text_of numberText v s /\ number_of parseNumber w x /\ stores 16 x n /\ part_of h' a PId = Some (PNum (Z.of_N id)) /\
    part_of h' a PRecursionDesired = Some (PBit true) /\ part_of h' a PQuestions = Some (PQs [Q s n 1]) /\ only_changed h h' a [PId; PRecursionDesired; PQuestions].
Proof.
  intros OK. unfold setQuestion. destruct (nth_error (msgs h) a) as [m|] eqn:X; [|discriminate].
  destruct (checkString v) as [s|] eqn:V; [|discriminate]. destruct (checkNumber w) as [x|] eqn:W; [|discriminate]. cbn [alloc]. intros [= <-].
  exists s, x, (uint far 16 x). split; [apply text_iff, V|]. split; [apply number_iff, W|]. split; [apply uint_stores|].
  match goal with |- context [with_msg a ?m' ?h1] => destruct (changed h h1 a m m' [PId; PRecursionDesired; PQuestions] OK (grown_alloc [Q s (uint far 16 x) 1] h) X) as (C & P) end.
  { intros p N. destruct p; try reflexivity; exfalso; apply N; cbn; tauto. }
  split; [exact (P PId)|]. split; [exact (P PRecursionDesired)|]. split; [|exact C]. etransitivity; [exact (P PQuestions)|]. cbn. rewrite app_nth2, Nat.sub_diag by lia. reflexivity.
Qed.
Lemma ask_refused h a id v w h' : setQuestion far parseNumber numberText h a id v w = (h', false) -> h' = h.
Proof. unfold setQuestion. destruct (nth_error (msgs h) a), (checkString v), (checkNumber w); cbn [alloc]; congruence. Qed.
Lemma ask_iff h a id v w : a < length (msgs h) ->
  (snd (setQuestion far parseNumber numberText h a id v w) = true <-> (exists s, text_of numberText v s) /\ exists x, number_of parseNumber w x).
Proof.
  intros L. unfold setQuestion. destruct (nth_error (msgs h) a) as [m|] eqn:X; [|apply nth_error_None in X; lia]. split.
  - destruct (checkString v) as [s|] eqn:V; [|discriminate]. destruct (checkNumber w) as [x|] eqn:W; [|discriminate]. intros _.
    split; [exists s; apply text_iff, V|exists x; apply number_iff, W].
  - intros [(s & V) (x & W)]. apply text_iff in V. apply number_iff in W. rewrite V, W. reflexivity.
Qed.

(** ** EDNS0 *)
Lemma last_opt rs l : forall found,
  lastOPT rs l found = found /\ (forall o, In o l -> ~ typed41 rs o) \/
  exists l1 o l2, l = l1 ++ o :: l2 /\ lastOPT rs l found = Some o /\ typed41 rs o /\ forall o', In o' l2 -> ~ typed41 rs o'.
Proof.
  induction l as [|a l IH]; intros found; cbn [lastOPT]; [left; split; [reflexivity|intros o []]|].
  set (f := match nth_error rs a with Some r => _ | None => found end).
  destruct (IH f) as [[E N]|(l1 & o & l2 & -> & E & T & N)].
  - assert (D : typed41 rs a /\ f = Some a \/ ~ typed41 rs a /\ f = found).
    { unfold f, typed41. destruct (nth_error rs a) as [r|]; [|right; split; [intros (r & [=] & _)|reflexivity]].
      destruct (N.eqb_spec (h_type (rr_hdr r)) 41) as [Y|Y]; [left; eauto|right; split; [intros (r' & [= <-] & Z); contradiction|reflexivity]]. }
    destruct D as [[T F]|[T F]].
    + right. exists [], a, l. split; [reflexivity|]. split; [congruence|]. split; [exact T|exact N].
    + left. split; [congruence|]. intros o [<-|I]; [exact T|apply N, I].
  - right. exists (a :: l1), o, l2. split; [reflexivity|]. split; [exact E|]. split; [exact T|exact N].
Qed.
Lemma is_edns h a l : part_of h a PExtra = Some (PRecs l) ->
  isEdns0 h a = LNil /\ (forall o, In o l -> ~ typed41 (records h) o) \/
  exists l1 o l2, l = l1 ++ o :: l2 /\ isEdns0 h a = LUser (RRecord o) /\ typed41 (records h) o /\ forall o', In o' l2 -> ~ typed41 (records h) o'.
Proof.
  rewrite part_mpart. unfold isEdns0. destruct (nth_error (msgs h) a) as [m|]; [|discriminate]. cbn. intros [= <-].
  destruct (last_opt (records h) (g_extra m) None) as [[E N]|(l1 & o & l2 & E & F & R)]; [left|right].
  - rewrite E. split; [reflexivity|exact N].
  - exists l1, o, l2. rewrite F. split; [exact E|]. split; [reflexivity|exact R].
Qed.
Lemma set_edns h a v w h' : store_ok h -> setEdns0 far parseNumber h a v w = (h', true) ->
  exists x n b l o r, number_of parseNumber v x /\ stores 16 x n /\ w = LBool b /\ part_of h a PExtra = Some (PRecs l) /\ part_of h' a PExtra = Some (PRecs (l ++ [o])) /\
    nth_error (records h) o = None /\ nth_error (records h') o = Some r /\ h_name (rr_hdr r) = "."%string /\ h_type (rr_hdr r) = 41%N /\
    opt_is r (View n 0 0 b 0 []) /\ isEdns0 h' a = LUser (RRecord o) /\ only_changed h h' a [PExtra].
Proof using far parseNumber.
  clear numberText.
  intros OK. unfold setEdns0. destruct (nth_error (msgs h) a) as [m|] eqn:X; [|discriminate].
  destruct (checkNumber v) as [x|] eqn:V; [|discriminate]. destruct (checkBool w) as [b|] eqn:W; [|discriminate]. destruct w; try discriminate. injection W as ->.
  cbn [alloc_record]. intros [= <-]. set (r := RR _ _ _).
  match goal with |- context [with_msg a ?m' ?h1] => destruct (changed h h1 a m m' [PExtra] OK (grown_record r h) X) as (C & P); [|set (h2 := with_msg a m' h1) in *] end.
  { intros p N. destruct p; try reflexivity. exfalso; apply N; cbn; tauto. }
  assert (NR : nth_error (records h ++ [r]) (length (records h)) = Some r) by (rewrite nth_error_app2, Nat.sub_diag by lia; reflexivity).
  exists x, (uint far 16 x), b, (g_extra m), (length (records h)), r. split; [apply number_iff, V|]. split; [apply uint_stores|]. split; [reflexivity|].
  split; [rewrite part_mpart, X; reflexivity|]. split; [exact (P PExtra)|]. split; [apply nth_error_None; lia|]. split; [exact NR|].
  split; [reflexivity|]. split; [reflexivity|]. split; [|split; [|exact C]].
  - split; [reflexivity|]. split; [reflexivity|]. split; [|reflexivity]. unfold r. cbn [rr_hdr h_ttl]. destruct b; repeat split.
  - destruct (is_edns h2 a _ (P PExtra)) as [[_ N]|(l1 & o & l2 & E & F & T & N)].
    + exfalso. apply (N (length (records h))); [apply in_app_iff; right; left; reflexivity|]. exists r. split; [exact NR|reflexivity].
    + rewrite F. cbn in E. assert (l2 = []).
      { destruct l2 as [|y l2]; [reflexivity|exfalso]. destruct (exists_last (l := y :: l2) ltac:(discriminate)) as (l3 & z & E3). rewrite E3 in *.
        rewrite app_comm_cons, app_assoc in E. apply app_inj_tail in E. destruct E as [_ <-].
        apply (N (length (records h))); [apply in_app_iff; right; left; reflexivity|]. exists r. split; [exact NR|reflexivity]. }
      subst l2. apply app_inj_tail in E. destruct E as [_ <-]. reflexivity.
Qed.
Lemma set_edns_refused h a v w h' : setEdns0 far parseNumber h a v w = (h', false) -> h' = h.
Proof. unfold setEdns0. destruct (nth_error (msgs h) a), (checkNumber v), (checkBool w); cbn [alloc_record]; congruence. Qed.
Lemma set_edns_iff h a v w : a < length (msgs h) ->
  (snd (setEdns0 far parseNumber h a v w) = true <-> (exists x, number_of parseNumber v x) /\ exists b, w = LBool b).
Proof using far parseNumber.
  clear numberText.
  intros L. unfold setEdns0. destruct (nth_error (msgs h) a) as [m|] eqn:X; [|apply nth_error_None in X; lia]. split.
  - destruct (checkNumber v) as [x|] eqn:V; [|discriminate]. destruct w; try discriminate. intros _. split; [exists x; apply number_iff, V|eauto].
  - intros [(x & V) (b & ->)]. apply number_iff in V. rewrite V. reflexivity.
Qed.
End Lua.
