(** Proofs about EDNS0 options in scripts *)
From Verif Require Import Base Bytes Net LuaVal_model LuaVal_proofs LuaRR_model LuaRR_spec LuaRR_proofs LuaMsg_model LuaMsg_spec LuaMsg_proofs LuaMsg_proofs2 Addr_model LuaEdns_model LuaEdns_spec.
From Coq Require Import Lia.
Local Open Scope N_scope.

Lemma names e : NoDup ("option"%string :: map fst (content e)).
Proof. destruct e; cbn; repeat (constructor; [cbn; intuition discriminate|]); constructor. Qed.
Lemma has_metatable e : metatable e = Some (kind_of e) /\ find_field (match split_last "." (goType e) with Some (_, b) => b | None => ""%string end) registered = Some (kind_of e).
Proof. destruct e; split; reflexivity. Qed.
Lemma type_named k : exists n, In (k, n) type_names /\ find_field n registered = Some k /\ forall m, In (k, m) type_names -> m = n.
Proof. destruct k; (eexists; split; [cbn; repeat first [left; reflexivity|right]|split; [reflexivity|]]); cbn; intuition (try discriminate; congruence). Qed.

Ltac by_name name := repeat match goal with |- context [String.eqb name ?x] => destruct (String.eqb_spec name x) as [->|?] end.
Ltac the_field := cbn; repeat first [left; reflexivity|right].

Section Reading.
Variable ipString : bytes -> string.
Notation getOption := (getOption ipString).

Lemma slice_shows l : Forall (fun n => n < 2 ^ 8) l -> oshows ipString (ONums l) (numberSliceToTable l).
Proof.
  intros F. constructor. induction F as [|n l H F IH]; cbn; constructor; [|exact IH]. eexists. split; [reflexivity|]. apply of_uint_small with (w := 8); [lia|exact H].
Qed.
Lemma code_shown e : edns_ok e -> exists n, has_code e n /\ denotes (of_uint (Option_ e)) (Z.of_N n).
Proof.
  intros OK. exists (Option_ e). destruct e; (split; [first [reflexivity|cbn; auto]|]); try (apply of_uint_exact; cbn; lia).
  apply of_uint_small with (w := 16); [lia|]. cbn. unfold edns_ok in OK. cbn in OK. inversion OK. assumption.
Qed.
Lemma read e name : edns_ok e ->
  match getOption e name with
  | Some v => (name = "option"%string /\ exists x n, v = LNum x /\ denotes x (Z.of_N n) /\ has_code e n) \/ exists w, In (name, w) (content e) /\ oshows ipString w v
  | None => name <> "option"%string /\ ~ In name (map fst (content e))
  end.
Proof.
  intros OK. unfold getOption. destruct (String.eqb_spec name "option") as [->|NO].
  { left. split; [reflexivity|]. destruct (code_shown e OK) as (n & C & D). eauto 6. }
  destruct e; by_name name; try (split; [assumption|cbn; intuition congruence]); right; eexists; (split; [the_field|]);
    first [apply oshows_num, of_uint_close|apply oshows_text|apply oshows_addr|apply slice_shows; unfold edns_ok in OK; cbn in OK; inversion OK; assumption].
Qed.

End Reading.

Section Lua.
Variable far : N -> num -> N.
Variable parseNumber : string -> option num.
Variable numberText : num -> string.
Variable parseIP : string -> option bytes.
Notation setOption := (setOption far parseNumber numberText parseIP).
Notation newOption := (newOption far parseNumber numberText parseIP).
Notation otakes := (otakes parseNumber numberText parseIP).
Notation oaccepts := (oaccepts parseNumber numberText parseIP).
Lemma slice_takes v l : getNumberSlice far v = Some l -> forall old, otakes (ONums old) v (ONums l).
Proof.
  unfold getNumberSlice. destruct v as [| | | |t| |]; try discriminate. intros H old. constructor. revert l H. induction t as [|x t IH]; intros l H; cbn in H.
  - injection H as <-. constructor.
  - destruct x as [| |x| | | |]; try discriminate. destruct (numbers far 8 t) as [r|]; [|discriminate]. cbn in H. injection H as <-.
    constructor; [|apply IH; reflexivity]. exists x. split; [reflexivity|apply uint_stores].
Qed.
Lemma uint_takes w v n old : checkUint far parseNumber w v = Some n -> otakes (ONum w old) v (ONum w n).
Proof.
  unfold checkUint. destruct (checkNumber parseNumber v) as [x|] eqn:E; [|discriminate]. cbn. intros [= <-]. econstructor; [apply number_iff, E|apply uint_stores].
Qed.
Lemma text_takes v s old : checkString numberText v = Some s -> otakes (OText old) v (OText s).
Proof. intros E. constructor. apply text_iff, E. Qed.
Lemma ip_takes v ip old : checkIP numberText parseIP v = Some ip -> otakes (OAddr old) v (OAddr ip).
Proof.
  unfold checkIP. destruct (checkString numberText v) as [s|] eqn:E; [|discriminate]. intros H. econstructor; [apply text_iff, E|exact H].
Qed.
Lemma write e name v e' : setOption e name v = Some e' ->
  exists l1 old new l2, content e = l1 ++ (name, old) :: l2 /\ content e' = l1 ++ (name, new) :: l2 /\ otakes old v new /\ kind_of e' = kind_of e /\ hidden e' = hidden e.
Proof.
  unfold setOption. destruct e; by_name name; intros H; try discriminate;
  match type of H with option_map _ ?x = _ => destruct x as [y|] eqn:E; [|discriminate]; cbn in H; injection H as <- end;
  match goal with |- exists l1 old new l2, ?c = _ /\ _ =>
    first [exists []; do 3 eexists; split; [reflexivity|] | eexists [_]; do 3 eexists; split; [reflexivity|] | eexists [_; _]; do 3 eexists; split; [reflexivity|]
          | eexists [_; _; _]; do 3 eexists; split; [reflexivity|] | eexists [_; _; _; _]; do 3 eexists; split; [reflexivity|]] end;
  (split; [reflexivity|]); (split; [|split; reflexivity]);
  first [apply uint_takes, E|apply text_takes, E|apply slice_takes, E|apply ip_takes, E].
Qed.
Lemma accepts e name v : (exists e', setOption e name v = Some e') <-> exists old, In (name, old) (content e) /\ oaccepts old v.
Proof.
  split.
  - intros (e' & H). destruct (write _ _ _ _ H) as (l1 & old & new & l2 & E & _ & T & _). exists old. split; [rewrite E; apply in_app_iff; right; left; reflexivity|].
    destruct T as [w o u x n N S|o u s T|o l l' F|o u s ip T P]; [econstructor; exact N|econstructor; exact T| |econstructor; eauto].
    constructor. clear - F. induction F as [|u n l l' (x & -> & _) F IH]; intros w I; [contradiction|]. destruct I as [<-|I]; eauto.
  - intros (old & I & A).
    assert (N : forall w o, old = ONum w o -> exists n, checkUint far parseNumber w v = Some n).
    { intros w o ->. inversion A; subst. unfold checkUint. rewrite (proj2 (number_iff parseNumber v x)) by assumption. cbn. eauto. }
    assert (T : forall o, old = OText o -> exists s, checkString numberText v = Some s).
    { intros o ->. inversion A; subst. exists s. apply text_iff. assumption. }
    assert (L : forall o, old = ONums o -> exists s, getNumberSlice far v = Some s).
    { intros o ->. inversion A; subst. cbn. apply numbers_iff. assumption. }
    assert (P : forall o, old = OAddr o -> exists s, checkIP numberText parseIP v = Some s).
    { intros o ->. inversion A as [| | |? ? s ip TX PX]; subst. unfold checkIP. rewrite (proj2 (text_iff numberText v s)) by exact TX. eauto. }
    clear A. destruct e; cbn in I; repeat destruct I as [I|I]; try contradiction; injection I as <- <-; cbn [setOption String.eqb Ascii.eqb Bool.eqb];
      first [destruct (N _ _ eq_refl) as (y & ->)|destruct (T _ eq_refl) as (y & ->)|destruct (L _ eq_refl) as (y & ->)|destruct (P _ eq_refl) as (y & ->)]; cbn; eauto.
Qed.
(** The size of numbers *)
Lemma takes_sized old v new : otakes old v new -> sized new.
Proof.
  destruct 1 as [w o u x n N S|o u s T|o l l' F|o u s ip T P]; cbn; try exact I; [apply S|]. induction F as [|u n l l' (x & _ & S & _) F IH]; constructor; assumption.
Qed.
Lemma write_ok e name v e' : edns_ok e -> setOption e name v = Some e' -> edns_ok e'.
Proof.
  intros OK H. destruct (write _ _ _ _ H) as (l1 & old & new & l2 & E & E' & T & _). unfold edns_ok in *. rewrite E in OK. rewrite E'.
  apply Forall_app in OK. destruct OK as [A B]. apply Forall_app. split; [exact A|]. inversion B; subst. constructor; [eapply takes_sized, T|assumption].
Qed.

(** ** new *)
Notation made := (made parseNumber numberText parseIP).
Lemma arg_num args i w n : arg args i 0 (checkUint far parseNumber w) = Some n -> made args i (ONum w n).
Proof. unfold arg, made. destruct (nth_error args i) as [v|]; [apply uint_takes|]. intros [= <-]. reflexivity. Qed.
Lemma arg_text args i s : arg args i ""%string (checkString numberText) = Some s -> made args i (OText s).
Proof. unfold arg, made. destruct (nth_error args i) as [v|]; [apply text_takes|]. intros [= <-]. reflexivity. Qed.
Lemma arg_nums args i s : arg args i [] (getNumberSlice far) = Some s -> made args i (ONums s).
Proof. unfold arg, made. destruct (nth_error args i) as [v|]; [intros H; apply slice_takes, H|]. intros [= <-]. reflexivity. Qed.
Lemma arg_ip args i s : arg args i [] (checkIP numberText parseIP) = Some s -> made args i (OAddr s).
Proof. unfold arg, made. destruct (nth_error args i) as [v|]; [apply ip_takes|]. intros [= <-]. reflexivity. Qed.
Lemma new_is k args e : newOption k args = Some e ->
  kind_of e = k /\ (forall i name w, nth_error (content e) i = Some (name, w) -> made args i w) /\
  (k = KEXPIRE -> hidden e = Some (inl false)).
Proof.
  destruct k; cbn [newOption]; intros H;
  repeat match type of H with
  | context [arg ?a ?i ?z ?f] => let E := fresh "E" in destruct (arg a i z f) eqn:E; cbn [ap] in H; [|discriminate]
  end; cbn [ap] in H; injection H as <-; (split; [reflexivity|]); (split; [|first [discriminate|reflexivity]]);
  intros i name w N; repeat (destruct i as [|i]; cbn in N; [injection N as <- <-; first [apply arg_num; assumption|apply arg_text; assumption|apply arg_nums; assumption|apply arg_ip; assumption]|]); destruct i; discriminate.
Qed.
Lemma num_arg args i w : (forall v, nth_error args i = Some v -> oaccepts (ONum w 0) v) -> exists n, arg args i 0 (checkUint far parseNumber w) = Some n.
Proof.
  intros H. unfold arg. destruct (nth_error args i) as [v|]; [|eauto]. specialize (H v eq_refl). inversion H; subst. unfold checkUint.
  rewrite (proj2 (number_iff parseNumber v x)) by assumption. cbn. eauto.
Qed.
Lemma text_arg args i : (forall v, nth_error args i = Some v -> oaccepts (OText "") v) -> exists n, arg args i ""%string (checkString numberText) = Some n.
Proof. intros H. unfold arg. destruct (nth_error args i) as [v|]; [|eauto]. specialize (H v eq_refl). inversion H; subst. exists s. apply text_iff. assumption. Qed.
Lemma nums_arg args i : (forall v, nth_error args i = Some v -> oaccepts (ONums []) v) -> exists n, arg args i [] (getNumberSlice far) = Some n.
Proof. intros H. unfold arg. destruct (nth_error args i) as [v|]; [|eauto]. specialize (H v eq_refl). inversion H; subst. cbn. apply numbers_iff. assumption. Qed.
Lemma ip_arg args i : (forall v, nth_error args i = Some v -> oaccepts (OAddr []) v) -> exists n, arg args i [] (checkIP numberText parseIP) = Some n.
Proof.
  intros H. unfold arg. destruct (nth_error args i) as [v|]; [|eauto]. specialize (H v eq_refl). inversion H as [| | |? ? s ip T P]; subst.
  unfold checkIP. rewrite (proj2 (text_iff numberText v s)) by exact T. eauto.
Qed.
Lemma takes_accepts old v new : otakes old v new -> oaccepts old v.
Proof.
  destruct 1 as [w o u x n N S|o u s T|o l l' F|o u s ip T P]; [econstructor; exact N|econstructor; exact T| |econstructor; eauto].
  constructor. induction F as [|u n l l' (x & -> & _) F IH]; intros w I; [contradiction|]. destruct I as [<-|I]; eauto.
Qed.
Lemma new_accepts k args : (exists e, newOption k args = Some e) <-> forall i p v, nth_error (params k) i = Some p -> nth_error args i = Some v -> oaccepts p v.
Proof.
  split.
  - intros (e & H) i p v P A.
    assert (MA : forall z w, made args i w -> z = zero_like w -> oaccepts z v).
    { intros z w M ->. unfold made in M. rewrite A in M. eapply takes_accepts, M. }
    destruct k; cbn [newOption] in H;
    repeat match type of H with
    | context [arg ?a ?i ?z ?f] => let E := fresh "E" in destruct (arg a i z f) eqn:E; cbn [ap] in H; [|discriminate]
    end;
    repeat (destruct i as [|i]; cbn in P;
      [injection P as <-; first [eapply MA; [apply arg_num; eassumption|reflexivity]|eapply MA; [apply arg_text; eassumption|reflexivity]
                                |eapply MA; [apply arg_nums; eassumption|reflexivity]|eapply MA; [apply arg_ip; eassumption|reflexivity]]|]); destruct i; discriminate.
  - intros H. assert (N : forall i p, nth_error (params k) i = Some p -> forall v, nth_error args i = Some v -> oaccepts p v) by (intros; eapply H; eassumption). clear H.
    destruct k; cbn [newOption params] in *;
    repeat match goal with
    | |- context [arg args ?i 0 (checkUint _ _ ?w)] => destruct (num_arg args i w (N i _ eq_refl)) as (? & ->); cbn [ap]
    | |- context [arg args ?i _ (checkString _)] => destruct (text_arg args i (N i _ eq_refl)) as (? & ->); cbn [ap]
    | |- context [arg args ?i _ (getNumberSlice _)] => destruct (nums_arg args i (N i _ eq_refl)) as (? & ->); cbn [ap]
    | |- context [arg args ?i _ (checkIP _ _)] => destruct (ip_arg args i (N i _ eq_refl)) as (? & ->); cbn [ap]
    end; eauto.
Qed.
Lemma new_ok k args e : newOption k args = Some e -> edns_ok e.
Proof.
  intros H. apply new_is in H. destruct H as (_ & M & _). unfold edns_ok. apply Forall_forall. intros [name w] I. cbn. apply In_nth_error in I. destruct I as (i & E).
  specialize (M i name w E). unfold made in M. destruct (nth_error args i) as [v|]; [eapply takes_sized, M|]. rewrite M. destruct w; cbn; try exact Logic.I; [|constructor].
  apply N.neq_0_lt_0, N.pow_nonzero. discriminate.
Qed.

(** ** Writing and reading *)
Variable ipString : bytes -> string.
Notation getOption := (getOption ipString).
Lemma content_fun e name a b : In (name, a) (content e) -> In (name, b) (content e) -> a = b.
Proof.
  pose proof (names e) as D. inversion D as [|x l _ D']; subst. clear D. induction (content e) as [|[n w] l IH]; [contradiction|]. cbn in D'. inversion D' as [|y l' N D]; subst.
  intros [A|A] [B|B]; [congruence| | |apply IH; assumption]; exfalso; apply N; apply in_map_iff; eexists; split; try eassumption; cbn; congruence.
Qed.
Lemma read_in e name w : edns_ok e -> In (name, w) (content e) -> exists v, getOption e name = Some v /\ oshows ipString w v.
Proof.
  intros OK I. pose proof (read ipString e name OK) as R. assert (NI : In name (map fst (content e))) by (apply in_map_iff; exists (name, w); auto).
  destruct (getOption e name) as [v|]; [|tauto]. destruct R as [[-> _]|(w' & I' & S)].
  - exfalso. pose proof (names e) as D. inversion D. contradiction.
  - exists v. split; [reflexivity|]. rewrite (content_fun _ _ _ _ I I'). exact S.
Qed.
Lemma whole_alike w x n : whole (N.min w 53) x -> stores w x n -> forall y, close y (Z.of_N n) -> alike (LNum x) (LNum y).
Proof.
  clear. intros (z & D & R) [_ S] y C. assert (M : (2 ^ Z.of_N (N.min w 53) <= 2 ^ Z.of_N w)%Z) by (apply Z.pow_le_mono_r; lia).
  assert (M' : (2 ^ Z.of_N (N.min w 53) <= 2 ^ 53)%Z) by (apply Z.pow_le_mono_r; lia).
  assert (E : n = Z.to_N z) by (apply S; [exact D|lia]). subst n. rewrite Z2N.id in C by lia. apply alike_num with (z := z); [exact D|].
  destruct C as [[_ C]|[C _]]; [exact C|lia].
Qed.
Lemma back e name v old : edns_ok e -> In (name, old) (content e) -> oexact ipString parseIP old v ->
  exists e' v', setOption e name v = Some e' /\ getOption e' name = Some v' /\ alike v v'.
Proof.
  intros OK I X. destruct (proj2 (accepts e name v)) as (e' & S).
  { exists old. split; [exact I|]. destruct X as [w o x W|o s|o l F|o s ip P T]; [econstructor; left; reflexivity|econstructor; left; reflexivity| |econstructor; [left; reflexivity|exact P]].
    constructor. intros u IN. destruct (F u IN) as (x & E & _). eauto. }
  exists e'. destruct (write e name v e' S) as (l1 & old' & new & l2 & E & E' & T & _).
  assert (IE : In (name, old') (content e)) by (rewrite E; apply in_app_iff; right; left; reflexivity). rewrite (content_fun _ _ _ _ I IE) in X.
  destruct (read_in e' name new (write_ok _ _ _ _ OK S)) as (v' & G & SH); [rewrite E'; apply in_app_iff; right; left; reflexivity|].
  exists v'. split; [exact S|]. split; [exact G|]. clear - X T SH. destruct X as [w o x W|o s|o l F|o s ip P TX]; inversion T; subst; inversion SH; subst.
  - match goal with H : number_of _ (LNum _) _ |- _ => destruct H as [H|(? & H & _)]; [injection H as <-|discriminate] end. eapply whole_alike; eassumption.
  - match goal with H : text_of _ (LStr _) _ |- _ => destruct H as [H|(? & H & _)]; [injection H as <-|discriminate] end. constructor.
  - apply alike_tab. clear T SH. match goal with H : Forall2 _ l ?a, K : Forall2 _ ?a ?b |- _ => revert b K; induction H as [|u n l l' (x & -> & ST) H IH]; intros b K; inversion K; subst; constructor end.
    + match goal with H : exists z, _ = LNum z /\ denotes z _ |- _ => destruct H as (? & -> & D) end. destruct (F (LNum x) (or_introl eq_refl)) as (x' & EX & (z & Dz & R)). injection EX as <-.
      apply alike_num with (z := z); [exact Dz|]. destruct ST as [_ ST]. rewrite (ST z Dz R) in D. rewrite Z2N.id in D by lia. exact D.
    + apply IH; [|assumption]. intros u IN. apply F. right. exact IN.
  - match goal with H : text_of _ (LStr _) _ |- _ => destruct H as [H|(? & H & _)]; [injection H as <-|discriminate] end.
    match goal with A : parseIP ?s = Some ?a, B : parseIP ?s = Some ?b |- _ => assert (X : a = b) by congruence; rewrite X end. constructor.
Qed.
End Lua.
