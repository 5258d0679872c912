(** Proofs about messages and questions in Lua *)
From Verif Require Import Base Bytes Dns LuaVal_model LuaVal_proofs LuaRR_model LuaRR_spec LuaRR_proofs LuaMsg_model LuaMsg_spec.
From Coq Require Import Lia.
Local Open Scope nat_scope.

(** ** Stores *)
Lemma len_put {A} i (x : A) l : length (put_nth i x l) = length l.
Proof. revert i. induction l as [|y l IH]; intros [|i]; cbn; [reflexivity..|f_equal; apply IH]. Qed.
Lemma put_same {A} i (x : A) l : i < length l -> nth_error (put_nth i x l) i = Some x.
Proof. revert i. induction l as [|y l IH]; intros [|i] H; cbn in *; [lia|lia|reflexivity|apply IH; lia]. Qed.
Lemma put_other {A} i j (x : A) l : i <> j -> nth_error (put_nth i x l) j = nth_error l j.
Proof. revert i j. induction l as [|y l IH]; intros [|i] [|j] H; cbn; try reflexivity; [lia|apply IH; lia]. Qed.
Lemma Forall_put {A} (P : A -> Prop) i x l : Forall P l -> P x -> Forall P (put_nth i x l).
Proof. intros H X. revert i. induction H as [|y l Y L IH]; intros [|i]; cbn; constructor; auto. Qed.
Lemma map_put {A B} (f : A -> B) i x l : nth_error (map f l) i = Some (f x) -> map f (put_nth i x l) = map f l.
Proof. revert i. induction l as [|y l IH]; intros [|i] H; cbn in *; try reflexivity; [injection H as <-; reflexivity|f_equal; apply IH, H]. Qed.
Lemma nth_nth {A} (l : list A) a d x : nth_error l a = Some x -> nth a l d = x.
Proof. intros H. apply nth_error_nth. exact H. Qed.
Lemma bound {A} (l : list A) a x : nth_error l a = Some x -> a < length l.
Proof. intros H. apply nth_error_Some. rewrite H. discriminate. Qed.

Lemma deref_at h a i : deref_question h a i = question_at h a i.
Proof.
  unfold deref_question, question_at. destruct (nth_error (arrays h) a) as [l|] eqn:E; [rewrite (nth_nth _ _ _ _ E); reflexivity|].
  apply nth_error_None in E. rewrite nth_overflow by exact E. destruct i; reflexivity.
Qed.

Definition mpart (qs : list (list question)) (m : gmsg) (p : part) : pval :=
  match p with
  | PId => PNum (Z.of_N (g_id m)) | PResponse => PBit (g_response m) | POpcode => PNum (g_opcode m) | PAuthoritative => PBit (g_aa m)
  | PTruncated => PBit (g_tc m) | PRecursionDesired => PBit (g_rd m) | PRecursionAvailable => PBit (g_ra m) | PAuthenticated => PBit (g_ad m)
  | PCheckingDisabled => PBit (g_cd m) | PRcode => PNum (g_rcode m) | PQuestions => PQs (nth (g_question m) qs [])
  | PAnswer => PRecs (g_answer m) | PNs => PRecs (g_ns m) | PExtra => PRecs (g_extra m)
  end.
Lemma part_mpart h a p : part_of h a p = option_map (fun m => mpart (arrays h) m p) (nth_error (msgs h) a).
Proof. reflexivity. Qed.

(** A store that has grown *)
Record grown (h h' : store) : Prop := {
  grown_msgs : msgs h' = msgs h; grown_arrays : exists l, arrays h' = arrays h ++ l; grown_records : exists l, records h' = records h ++ l }.
Lemma grown_refl h : grown h h.
Proof. constructor; [reflexivity|exists []; symmetry; apply app_nil_r|exists []; symmetry; apply app_nil_r]. Qed.
Lemma grown_alloc l h : grown h (fst (alloc l h)).
Proof. constructor; cbn; [reflexivity|eexists; reflexivity|exists []; symmetry; apply app_nil_r]. Qed.
Lemma grown_record r h : grown h (fst (alloc_record r h)).
Proof. constructor; cbn; [reflexivity|exists []; symmetry; apply app_nil_r|eexists; reflexivity]. Qed.
Lemma grown_at h h' a i q : grown h h' -> question_at h a i = Some q -> question_at h' a i = Some q.
Proof.
  intros [_ (l & E) _] H. unfold question_at in *. rewrite E. destruct (Nat.ltb_spec a (length (arrays h))) as [L|L].
  - rewrite app_nth1 by exact L. exact H.
  - rewrite (nth_overflow (arrays h)) in H by exact L. destruct i; discriminate.
Qed.

Lemma msg_in h a m : store_ok h -> nth_error (msgs h) a = Some m ->
  (g_id m < 2 ^ 16)%N /\ (- 2 ^ 63 <= g_rcode m < 2 ^ 63)%Z /\ g_question m < length (arrays h) /\ Forall (fun o => o < length (records h)) (g_answer m ++ g_ns m ++ g_extra m).
Proof. intros H E. pose proof (ok_msgs h H) as F. rewrite Forall_forall in F. apply F. eapply nth_error_In, E. Qed.

(** One message is replaced in a store that has grown. *)
Lemma changed h h' a m m' ps : store_ok h -> grown h h' -> nth_error (msgs h) a = Some m ->
  (forall q, ~ In q ps -> mpart (arrays h') m' q = mpart (arrays h') m q) ->
  only_changed h (with_msg a m' h') a ps /\ forall p, part_of (with_msg a m' h') a p = Some (mpart (arrays h') m' p).
Proof.
  intros OK G E S. pose proof (grown_msgs _ _ G) as EM. pose proof (bound _ _ _ E) as B.
  assert (K : forall b x q, nth_error (msgs h) b = Some x -> mpart (arrays h') x q = mpart (arrays h) x q).
  { intros b x q X. destruct (msg_in h b x OK X) as (_ & _ & L & _). destruct (grown_arrays _ _ G) as (l & EA).
    destruct q; cbn; try reflexivity. rewrite EA, app_nth1 by exact L. reflexivity. }
  assert (P : forall p, part_of (with_msg a m' h') a p = Some (mpart (arrays h') m' p)).
  { intros p. rewrite part_mpart. cbn [with_msg msgs arrays]. rewrite EM, put_same by exact B. reflexivity. }
  split; [|exact P]. split; [|split].
  - intros b p N. destruct (Nat.eq_dec b a) as [->|D].
    + rewrite P, (S p (N eq_refl)), (K a m p E), part_mpart, E. reflexivity.
    + rewrite !part_mpart. cbn [with_msg msgs arrays]. rewrite EM, put_other by congruence.
      destruct (nth_error (msgs h) b) as [x|] eqn:X; cbn; [rewrite (K b x p X)|]; reflexivity.
  - intros o r R. cbn [with_msg records]. destruct (grown_records _ _ G) as (l & ->). rewrite nth_error_app1; [exact R|eapply bound, R].
  - intros b i q Q0. exact (grown_at h h' b i q G Q0).
Qed.

Section Lua.
Variable far : N -> num -> N.

Lemma int64_exact x y : denotes x y -> (- 2 ^ 63 <= y < 2 ^ 63)%Z -> int64 far x = y.
Proof.
  intros D R. pose proof D as (m & e & -> & _). unfold int64. rewrite (trunc_denotes m e y D).
  destruct (Z.leb_spec (- 2 ^ 63) y); [|lia]. destruct (Z.ltb_spec y (2 ^ 63)); [reflexivity|lia].
Qed.
Lemma int64_bound x : (- 2 ^ 63 <= int64 far x < 2 ^ 63)%Z.
Proof.
  assert (O : (- 2 ^ 63 <= Z.of_N (far 64 x mod 2 ^ 64)%N - 2 ^ 63 < 2 ^ 63)%Z).
  { pose proof (N.mod_lt (far 64 x) (2 ^ 64) ltac:(discriminate)) as L. apply N2Z.inj_lt in L. change (Z.of_N (2 ^ 64)) with (2 ^ 63 + 2 ^ 63)%Z in L. lia. }
  unfold int64. destruct x as [m e|b|]; [|exact O..]. destruct (Z.leb_spec (- 2 ^ 63) (trunc m e)); [|exact O].
  destruct (Z.ltb_spec (trunc m e) (2 ^ 63)); [cbn; lia|exact O].
Qed.
Lemma of_int_exact z : (Z.abs z <= 2 ^ 53)%Z -> denotes (of_int z) z.
Proof.
  intros B. assert (L : (Z.to_N (Z.abs z) <= 2 ^ 53)%N) by (apply N2Z.inj_le; rewrite Z2N.id by lia; exact B).
  pose proof (of_uint_exact _ L) as (m & e & E & P & N). rewrite Z2N.id in P, N by lia. unfold of_int. rewrite E.
  destruct (Z.ltb_spec z 0) as [S|S]; exists (if (z <? 0)%Z then - m else m)%Z, e;
    destruct (Z.ltb_spec z 0) as [S'|S']; try lia; (split; [reflexivity|]); split; intros H.
  - specialize (P H). rewrite Z.mul_opp_l. lia.
  - specialize (N H). rewrite Z.abs_neq in N by lia. rewrite N. ring.
  - specialize (P H). lia.
  - specialize (N H). rewrite Z.abs_eq in N by lia. exact N.
Qed.

Lemma questions_iff h l qs : questionElements h l = Some qs <-> Forall2 (a_question h) qs l.
Proof.
  revert qs. induction l as [|v l IH]; intros qs; cbn [questionElements].
  - split; [intros [= <-]; constructor|intros H; inversion H; reflexivity].
  - split.
    + intros H. destruct v as [| | | | |[| a i| | |]|]; try discriminate. rewrite deref_at in H.
      destruct (question_at h a i) as [q|] eqn:E; [|discriminate]. destruct (questionElements h l) as [qs'|]; [|discriminate].
      injection H as <-. constructor; [exists a, i; split; [reflexivity|exact E]|]. apply IH. reflexivity.
    + intros H. inversion H as [|q v' qs' l' (a & i & -> & E) H']; subst. rewrite deref_at, E. apply IH in H'. rewrite H'. reflexivity.
Qed.
Lemma records_iff l os : rrElements l = Some os <-> Forall2 a_record os l.
Proof.
  revert os. induction l as [|v l IH]; intros os; cbn [rrElements].
  - split; [intros [= <-]; constructor|intros H; inversion H; reflexivity].
  - split.
    + intros H. destruct v as [| | | | |[| | a | |]|]; try discriminate. destruct (rrElements l) as [os'|]; [|discriminate].
      injection H as <-. constructor; [reflexivity|]. apply IH. reflexivity.
    + intros H. inversion H as [|o v' os' l' E H']; subst. rewrite E. apply IH in H'. rewrite H'. reflexivity.
Qed.

(** ** Reading *)
Lemma handles h a l : nth a (arrays h) [] = l -> Forall2 (a_question h) l (map (fun i => LUser (RQuestion a i)) (seq 0 (length l))).
Proof.
  intros E. assert (G : forall k t, skipn k l = t -> Forall2 (a_question h) t (map (fun i => LUser (RQuestion a i)) (seq k (length t)))).
  { assert (T : forall (A : Type) (xs : list A) k y ys, skipn k xs = y :: ys -> skipn (1 + k) xs = ys).
    { intros A xs. induction xs as [|x xs IH]; intros [|k] y ys H; cbn in *; try discriminate; [congruence|]. apply (IH k y), H. }
    intros k t. revert k. induction t as [|q t IH]; intros k K; cbn; [constructor|]. constructor.
    - exists a, k. split; [reflexivity|]. unfold question_at. rewrite E. rewrite <- (firstn_skipn k l), K.
      assert (B : k <= length l) by (destruct (Nat.le_gt_cases k (length l)); [assumption|rewrite skipn_all2 in K by lia; discriminate]).
      rewrite nth_error_app2; rewrite firstn_length_le by exact B; [rewrite Nat.sub_diag; reflexivity|lia].
    - apply IH. apply (T _ l k q t K). }
  apply (G 0). reflexivity.
Qed.
Lemma read h a name : store_ok h -> a < length (msgs h) ->
  match getMsg h a name with
  | Some v => (exists p w, In (name, p) script_names /\ part_of h a p = Some w /\ shows_part h w v) \/ In name methods /\ v = LFun
  | None => ~ In name (map fst script_names) /\ ~ In name methods
  end.
Proof.
  intros OK L. unfold getMsg. destruct (nth_error (msgs h) a) as [m|] eqn:E; [|apply nth_error_None in E; lia].
  destruct (msg_in h a m OK E) as (I & RC & _ & _).
  Ltac part_case x p := match goal with |- context [String.eqb ?n x] => destruct (String.eqb_spec n x) as [->|?];
    [left; exists p; eexists; split; [cbn; tauto|]; split; [rewrite part_mpart; match goal with X : nth_error _ _ = Some _ |- _ => rewrite X end; reflexivity|]|] end.
  part_case "questions"%string PQuestions. { constructor. apply handles. reflexivity. }
  part_case "id"%string PId. { constructor. intros _. apply (of_uint_small _ 16); [lia|exact I]. }
  part_case "response"%string PResponse. { constructor. }
  part_case "rcode"%string PRcode. { constructor. apply of_int_exact. }
  part_case "recursion_desired"%string PRecursionDesired. { constructor. }
  part_case "recursion_available"%string PRecursionAvailable. { constructor. }
  part_case "authoritative"%string PAuthoritative. { constructor. }
  part_case "authenticated_data"%string PAuthenticated. { constructor. }
  assert (T : forall l, shows_part h (PRecs l) (rrSliceToTable l)).
  { intros l. apply shows_records. induction l; cbn; constructor; [reflexivity|assumption]. }
  part_case "answer"%string PAnswer. { apply T. }
  part_case "ns"%string PNs. { apply T. }
  part_case "extra"%string PExtra. { apply T. }
  repeat match goal with |- context [String.eqb ?n ?x] => destruct (String.eqb_spec n x) as [->|?]; [right; split; [cbn; tauto|reflexivity]|] end.
  split; cbn; intuition congruence.
Qed.

(** ** Assignments *)
Lemma write h a name v h' : store_ok h -> setMsg far h a name v = (h', true) ->
  exists p w, In (name, p) script_names /\ takes_part h p v w /\ part_of h' a p = Some w /\ only_changed h h' a [p].
Proof.
  intros OK. unfold setMsg. destruct (nth_error (msgs h) a) as [m|] eqn:E; [|discriminate].
  assert (S : forall p m', (forall q, ~ In q [p] -> mpart (arrays h) m' q = mpart (arrays h) m q) ->
    part_of (with_msg a m' h) a p = Some (mpart (arrays h) m' p) /\ only_changed h (with_msg a m' h) a [p]).
  { intros p m' H. destruct (changed h h a m m' [p] OK (grown_refl h) E H) as (C & P). split; [apply P|exact C]. }
  destruct m as [id response opcode aa tc rd ra ad cd rcode question answer ns extra].
  Ltac fin p := match goal with S : forall _ _, _ |- _ => eexists p, _; split; [cbn; tauto|]; split; [|apply (S p); intros q N; destruct q; try reflexivity; exfalso; apply N; left; reflexivity] end.
  Ltac name_is x := match goal with |- context [String.eqb ?n x] => destruct (String.eqb_spec n x) as [->|?] end.
  name_is "questions"%string.
  { destruct v as [| | | |l| |]; try discriminate. destruct (questionElements h l) as [qs|] eqn:Q; [|discriminate]. cbn [alloc]. intros [= <-].
    pose proof (grown_alloc qs h) as G.
    destruct (changed h _ a _ (GMsg id response opcode aa tc rd ra ad cd rcode (length (arrays h)) answer ns extra) [PQuestions] OK G E) as (C & P).
    { intros q N. destruct q; try reflexivity. exfalso. apply N. left. reflexivity. }
    exists PQuestions, (PQs qs). split; [cbn; tauto|]. split; [constructor; apply questions_iff, Q|]. split; [|exact C].
    etransitivity; [apply P|]. cbn. rewrite app_nth2, Nat.sub_diag by lia. reflexivity. }
  name_is "id"%string.
  { destruct v as [| |x| | | |]; try discriminate. cbn [checkInt]. intros [= <-]. fin PId. cbn [mpart g_id].
    assert (R : (0 <= int64 far x mod 2 ^ 16 < 2 ^ 16)%Z) by (apply Z.mod_pos_bound; lia).
    rewrite Z2N.id by lia. constructor; [exact R|]. intros y D B. rewrite (int64_exact x y D B). reflexivity. }
  name_is "response"%string. { destruct v; try discriminate. intros [= <-]. fin PResponse. constructor. cbn; tauto. }
  name_is "rcode"%string.
  { destruct v as [| |x| | | |]; try discriminate. cbn [checkInt]. intros [= <-]. fin PRcode. constructor. intros y D B. apply int64_exact; assumption. }
  name_is "recursion_desired"%string. { destruct v; try discriminate. intros [= <-]. fin PRecursionDesired. constructor. cbn; tauto. }
  name_is "recursion_available"%string. { destruct v; try discriminate. intros [= <-]. fin PRecursionAvailable. constructor. cbn; tauto. }
  name_is "authoritative"%string. { destruct v; try discriminate. intros [= <-]. fin PAuthoritative. constructor. cbn; tauto. }
  name_is "authenticated_data"%string. { destruct v; try discriminate. intros [= <-]. fin PAuthenticated. constructor. cbn; tauto. }
  name_is "answer"%string. { destruct v as [| | | |l| |]; try discriminate. cbn [tableToRRSlice]. destruct (rrElements l) eqn:R; [|discriminate]. intros [= <-]. fin PAnswer. apply takes_records; [cbn; tauto|apply records_iff, R]. }
  name_is "ns"%string. { destruct v as [| | | |l| |]; try discriminate. cbn [tableToRRSlice]. destruct (rrElements l) eqn:R; [|discriminate]. intros [= <-]. fin PNs. apply takes_records; [cbn; tauto|apply records_iff, R]. }
  name_is "extra"%string. { destruct v as [| | | |l| |]; try discriminate. cbn [tableToRRSlice]. destruct (rrElements l) eqn:R; [|discriminate]. intros [= <-]. fin PExtra. apply takes_records; [cbn; tauto|apply records_iff, R]. }
  discriminate.
Qed.
Lemma accepts h a name p v w : a < length (msgs h) -> In (name, p) script_names -> takes_part h p v w -> exists h', setMsg far h a name v = (h', true).
Proof.
  intros L I T. unfold setMsg. destruct (nth_error (msgs h) a) as [[]|] eqn:E; [|apply nth_error_None in E; lia].
  cbn in I. repeat (destruct I as [I|I]; [injection I as <- <-; cbn [String.eqb Ascii.eqb Bool.eqb];
    inversion T as [x z R F|x z F|p' b P|qs l F|p' os l P F]; subst; try (cbn in P; intuition discriminate);
    try (apply questions_iff in F; rewrite F); try (cbn [tableToRRSlice]; apply records_iff in F; rewrite F); eexists; reflexivity|]). contradiction.
Qed.
Lemma refused h a name v h' : setMsg far h a name v = (h', false) -> h' = h.
Proof.
  unfold setMsg. destruct (nth_error (msgs h) a) as [[]|]; [|congruence]. cbv zeta.
  repeat match goal with |- context [String.eqb name ?x] => destruct (String.eqb name x) end;
    try (destruct (checkInt far v); congruence); try (destruct (checkBool v); congruence); try (destruct (tableToRRSlice v); congruence); try congruence.
  destruct v; try congruence. destruct (questionElements h l); cbn; congruence.
Qed.
End Lua.
