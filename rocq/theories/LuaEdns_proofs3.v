(** Whole scripts with options; constants, client information, errors *)
From Verif Require Import Base Bytes Dns Net LuaVal_model LuaVal_proofs LuaRR_model LuaRR_spec LuaRR_proofs LuaRR_proofs2 LuaMsg_model LuaMsg_spec LuaMsg_proofs LuaMsg_proofs2 LuaMsg_proofs3 LuaMsg_proofs4
  LuaEdns_model LuaEdns_spec LuaEdns_proofs LuaEdns_proofs2.
From Coq Require Import Lia Permutation.
Local Open Scope nat_scope.

Section Lua.
Variable far : N -> num -> N.
Variable parseNumber : string -> option num.
Variable numberText : num -> string.
Variable ipString : bytes -> string.
Variable parseIP : string -> option bytes.
Variable typeToRR : N -> option (list ftype).
Notation estep := (estep far parseNumber numberText ipString parseIP typeToRR).

Lemma plain_new known entries r : (forall n t, typeToRR n = Some t -> type_ok t) -> NoDup (map fst entries) -> (forall k v, In (k, v) entries -> made_of known v) ->
  new far parseIP typeToRR entries = Some r -> record_ok r /\ forall a, In a (options_of r) -> In (ROption a) known.
Proof.
  intros TY ND M E. destruct (new_made _ _ _ _ _ TY ND E) as (OK & _ & _ & H & _ & _ & _ & IN). split; [exact OK|]. intros a I. apply in_options in I. destruct I as (g & k & l & IF & IL).
  destruct (in_dec string_dec (lower g) (map (fun e => match fst e with LStr s => s | _ => ""%string end) entries)) as [Y|N].
  - apply in_map_iff in Y. destruct Y as ([q v] & EQ & IE). destruct (H _ _ IE) as (s & EK & D). cbn in EQ. rewrite EK in EQ. subst s. destruct (field_name r g k (VEdns l) OK IF) as [NH _].
    destruct D as [D|[_ D]]; [exfalso; apply NH; rewrite D; cbn; tauto|].
    assert (T : takes parseIP v (VEdns l)).
    { remember (lower g) as nm eqn:EN. destruct D as [|x ST|x ST|g2 k2 x2 v IF2 T]; [exfalso; apply NH; cbn; tauto..|]. rewrite (field_fun r _ _ _ _ _ _ OK IF IF2 (eq_sym EN)). exact T. }
    eapply options_taken; [eapply M, IE|exact T|exact IL].
  - specialize (IN _ _ _ IF). assert (Z0 : initial k (VEdns l)).
    { apply IN. intros v IE. apply N. apply in_map_iff. exists (LStr (lower g), v). split; [reflexivity|exact IE]. }
    exfalso. destruct k; cbn in Z0; try discriminate. injection Z0 as ->. contradiction.
Qed.
Lemma more_reach h h' es es' r : kept h h' -> length es <= length es' -> reaches (h, es) r -> reaches (h', es') r.
Proof. intros K L [A B]. split; [apply K, A|]. cbn in *. intros a E. specialize (B a E). lia. Qed.

Lemma estep_ok s known o s' res : (forall n t, typeToRR n = Some t -> type_ok t) -> state_ok s -> Forall (reaches s) known -> epossible known o -> estep s o = (s', res) ->
  state_ok s' /\ (forall r, reaches s r -> reaches s' r) /\ Forall (reaches s') (match res with Some v => refs_of v | None => [] end) /\ (res = None -> s' = s) /\
  forall a e, nth_error (snd s) a = Some e -> exists e', nth_error (snd s') a = Some e' /\ kind_of e' = kind_of e /\ hidden e' = hidden e.
Proof.
  intros TY [OK OE OL] K P. destruct s as [h es]. cbn [fst snd] in *.
  assert (KO : forall a, In (ROption a) known -> a < length es) by (intros a I; rewrite Forall_forall in K; apply (proj2 (K _ I)); reflexivity).
  assert (KR : Forall (ref_ok h) known) by (eapply Forall_impl, K; intros r [H _]; exact H).
  assert (SAME : forall a e, nth_error es a = Some e -> exists e', nth_error es a = Some e' /\ kind_of e' = kind_of e /\ hidden e' = hidden e) by eauto.
  assert (STAY : forall r0 : option lval, (r0 = None -> True) -> Forall (reaches (h, es)) (match r0 with Some v => refs_of v | None => [] end) ->
    state_ok (h, es) /\ (forall r, reaches (h, es) r -> reaches (h, es) r) /\ Forall (reaches (h, es)) (match r0 with Some v => refs_of v | None => [] end) /\ (r0 = None -> (h, es) = (h, es)) /\
    forall a e, nth_error (snd (h, es)) a = Some e -> exists e', nth_error (snd (h, es)) a = Some e' /\ kind_of e' = kind_of e /\ hidden e' = hidden e)
    by (intros r0 _ F; split; [constructor; assumption|]; split; [tauto|]; split; [exact F|]; split; [reflexivity|exact SAME]).
  destruct o as [o|k args|mt a name|mt a name v|entries]; cbn [LuaEdns_model.estep epossible] in *.
  - destruct (step far parseNumber numberText ipString parseIP h o) as [h1 r] eqn:S. intros [= <- <-].
    destruct (step_ok _ _ _ _ _ h known o h1 r OK KR P S) as (O1 & K1 & R1 & N1). split; [|split; [|split; [|split]]].
    + constructor; [exact O1|exact OE|]. exact (base_links _ _ _ _ _ h (length es) known o h1 r OK KO P OL S).
    + intros x. apply more_reach; [exact K1|apply le_n].
    + destruct r as [v|]; [|constructor]. rewrite Forall_forall in R1 |- *. intros x I. split; [apply R1, I|]. intros a ->. exact (base_result _ _ _ _ _ h (length es) known o h1 v a OK P OL S I).
    + intros E. rewrite (N1 E). reflexivity.
    + exact SAME.
  - destruct (newOption far parseNumber numberText parseIP k args) as [e|] eqn:E; intros [= <- <-]; [|apply (STAY None); [tauto|constructor]].
    split; [|split; [|split; [|split; [discriminate|]]]].
    + constructor; cbn [fst snd]; [exact OK| |].
      * apply Forall_app. split; [exact OE|]. constructor; [eapply new_ok, E|constructor].
      * eapply Forall_impl, OL. intros r F. eapply Forall_impl, F. cbn. intros x B. rewrite app_length. lia.
    + intros x. apply more_reach; [apply kept_refl|rewrite app_length; lia].
    + constructor; [|constructor]. split; [exact I|]. intros a [= <-]. cbn. rewrite app_length. cbn. lia.
    + cbn. intros a ex EX. exists ex. split; [rewrite nth_error_app1; [exact EX|eapply nth_error_Some; congruence]|split; reflexivity].
  - intros [= <- <-]. apply (STAY (match nth_error es a with Some e => index ipString mt e name | None => None end)); [tauto|].
    destruct (nth_error es a) as [e|]; [|constructor]. unfold index. destruct (okind_eq mt (kind_of e)); [|constructor]. destruct (getOption ipString e name) as [v|] eqn:G; [|constructor].
    assert (NR : refs_of v = []).
    { revert G. unfold getOption. destruct (String.eqb name "option"); [intros [= <-]; reflexivity|].
      assert (NS : forall l, refs_of (numberSliceToTable l) = []) by (intros l; cbn; induction l; [reflexivity|exact IHl]).
      destruct e; repeat match goal with |- context [String.eqb name ?x] => destruct (String.eqb name x); [intros [= <-]; auto|] end; discriminate. }
    rewrite NR. constructor.
  - destruct (nth_error es a) as [e|] eqn:E; [|intros [= <- <-]; apply (STAY None); [tauto|constructor]].
    unfold newindex. destruct (okind_eq mt (kind_of e)); [|intros [= <- <-]; apply (STAY None); [tauto|constructor]].
    destruct (setOption far parseNumber numberText parseIP e name v) as [e'|] eqn:S; [|intros [= <- <-]; apply (STAY None); [tauto|constructor]].
    intros [= <- <-]. destruct (write _ _ _ _ _ _ _ _ S) as (_ & _ & _ & _ & _ & _ & _ & KE & HE).
    assert (EO : edns_ok e) by (rewrite Forall_forall in OE; eapply OE, nth_error_In, E). split; [|split; [|split; [constructor|split; [discriminate|]]]].
    + constructor; cbn [fst snd]; [exact OK|apply Forall_put; [exact OE|eapply write_ok; eauto]|rewrite len_put; exact OL].
    + intros x. apply more_reach; [apply kept_refl|rewrite len_put; lia].
    + cbn. intros b ex EX. destruct (Nat.eq_dec b a) as [->|NE].
      * rewrite E in EX. injection EX as <-. exists e'. split; [apply put_same; eapply nth_error_Some; congruence|split; assumption].
      * exists ex. split; [rewrite put_other by congruence; exact EX|split; reflexivity].
  - destruct P as [ND M]. destruct (new far parseIP typeToRR entries) as [r|] eqn:E; [|intros [= <- <-]; apply (STAY None); [tauto|constructor]].
    destruct (plain_new known entries r TY ND M E) as [RO RL]. cbn [alloc_record]. intros [= <- <-]. split; [|split; [|split; [|split; [discriminate|exact SAME]]]].
    + constructor; cbn [fst snd records]; [exact (ok_alloc_record h r OK RO)|exact OE|]. apply Forall_app. split; [exact OL|]. constructor; [|constructor]. rewrite Forall_forall. intros x I. apply KO, RL, I.
    + intros x. apply more_reach; [exact (grown_kept _ _ (grown_record r h))|apply le_n].
    + constructor; [|constructor]. split; [cbn; rewrite app_length; cbn; lia|discriminate].
Qed.
Lemma escript_ok s known s' known' : (forall n t, typeToRR n = Some t -> type_ok t) -> escript estep s known s' known' -> state_ok s -> Forall (reaches s) known ->
  state_ok s' /\ Forall (reaches s') known' /\ (forall r, reaches s r -> reaches s' r) /\
  forall a e, nth_error (snd s) a = Some e -> exists e', nth_error (snd s') a = Some e' /\ kind_of e' = kind_of e /\ hidden e' = hidden e.
Proof.
  intros TY. induction 1 as [s k|s k o s1 res s2 k2 P N S IH]; intros OK K; [split; [exact OK|]; split; [exact K|]; split; [tauto|eauto]|].
  destruct (estep_ok s k o s1 res TY OK K P N) as (O1 & R1 & K1 & _ & E1). destruct IH as (O2 & K2 & R2 & E2); [exact O1| |].
  - apply Forall_app. split; [eapply Forall_impl, K; exact R1|exact K1].
  - split; [exact O2|]. split; [exact K2|]. split; [auto|]. intros a e E. destruct (E1 a e E) as (e1 & X1 & A1 & B1). destruct (E2 a e1 X1) as (e2 & X2 & A2 & B2). exists e2. split; [exact X2|]. split; congruence.
Qed.
Lemma apart s o s' res : estep s o = (s', res) ->
  match o with
  | EBase _ | ERecord _ => snd s' = snd s
  | EGet _ _ _ => s' = s
  | ENew _ _ => fst s' = fst s /\ exists l, snd s' = snd s ++ l
  | ESet _ a _ _ => fst s' = fst s /\ forall b, b <> a -> nth_error (snd s') b = nth_error (snd s) b
  end.
Proof.
  destruct s as [h es]. destruct o as [o|k args|mt a name|mt a name v|entries]; cbn [LuaEdns_model.estep].
  - destruct (step far parseNumber numberText ipString parseIP h o). intros [= <- <-]. reflexivity.
  - destruct (newOption far parseNumber numberText parseIP k args); intros [= <- <-]; split; try reflexivity; eexists; [reflexivity|symmetry; apply app_nil_r].
  - intros [= <- <-]. reflexivity.
  - destruct (nth_error es a) as [e|]; [|intros [= <- <-]; split; reflexivity]. destruct (newindex far parseNumber numberText parseIP mt e name v); intros [= <- <-]; split; try reflexivity.
    intros b N. cbn. apply put_other. congruence.
  - destruct (new far parseIP typeToRR entries); cbn [alloc_record]; intros [= <- <-]; reflexivity.
Qed.
Lemma through s i r view j a e mt name v s' : state_ok s -> nth_error (records (fst s)) i = Some r -> opt_is r view -> nth_error (ov_options view) j = Some a -> nth_error (snd s) a = Some e ->
  estep s (ESet mt a name v) = (s', Some LNil) ->
  exists l e' w, estep s' (EBase (OOptGet i "option")) = (s', Some (LTab l)) /\ nth_error l j = Some (LUser (ROption a)) /\ mt = kind_of e /\ In (name, w) (content e') /\
    (exists old, In (name, old) (content e) /\ otakes parseNumber numberText parseIP old v w) /\ exists lv, estep s' (EGet mt a name) = (s', Some lv) /\ oshows ipString w lv.
Proof.
  intros [OK OE OL] E VW J A. destruct s as [h es]. cbn [fst snd] in *. cbn [LuaEdns_model.estep]. rewrite A. unfold newindex. destruct (okind_eq mt (kind_of e)) eqn:KQ; [|discriminate].
  destruct (setOption far parseNumber numberText parseIP e name v) as [e'|] eqn:S; [|discriminate]. intros [= <-].
  assert (EO : edns_ok e) by (rewrite Forall_forall in OE; eapply OE, nth_error_In, A).
  destruct (write _ _ _ _ _ _ _ _ S) as (l1 & old & w & l2 & C & C' & T & KE & _).
  assert (IW : In (name, w) (content e')) by (rewrite C'; apply in_app_iff; right; left; reflexivity).
  destruct (read_in parseNumber parseIP ipString e' name w (write_ok _ _ _ _ _ _ _ _ EO S) IW) as (lv & G & SH).
  exists (map (fun o => LUser (ROption o)) (ov_options view)), e', w. split; [|split; [|split; [|split; [exact IW|split]]]].
  - cbn [LuaEdns_model.estep LuaMsg_model.step]. rewrite E. destruct (opt_read r view (record_in h i r OK E) VW) as (_ & _ & _ & _ & -> & _). reflexivity.
  - rewrite nth_error_map, J. reflexivity.
  - destruct mt, (kind_of e); try discriminate KQ; reflexivity.
  - exists old. split; [rewrite C; apply in_app_iff; right; left; reflexivity|exact T].
  - exists lv. split; [|exact SH]. cbn [LuaEdns_model.estep]. rewrite put_same by (eapply nth_error_Some; congruence). unfold index. rewrite KE, KQ, G. reflexivity.
Qed.
End Lua.

(** ** Constants *)
Lemma set_out prefix table g name : (forall n s, In (n, s) table -> name <> (prefix ++ s)%string) -> value_of (setAll prefix table g) name = value_of g name.
Proof.
  unfold setAll. revert g. induction table as [|[n s] table IH]; intros g H; [reflexivity|]. cbn. rewrite IH by (intros m t I; apply (H m t); right; exact I).
  unfold value_of, setGlobal. cbn. destruct (String.eqb_spec name (prefix ++ s)) as [E|_]; [|reflexivity]. exfalso. apply (H n s); [left; reflexivity|exact E].
Qed.
Lemma app_same p a b : (p ++ a)%string = (p ++ b)%string -> a = b.
Proof. induction p; cbn; [tauto|]. intros [= H]. auto. Qed.
Lemma set_in prefix table g n s : NoDup (map snd table) -> In (n, s) table -> value_of (setAll prefix table g) (prefix ++ s) = Some (LNum (of_uint n)).
Proof.
  unfold setAll. revert g. induction table as [|[m t] table IH]; intros g ND I; [contradiction|]. cbn in *. inversion ND as [|? ? NI ND']; subst. destruct I as [[= -> ->]|I]; [|apply IH; assumption].
  fold (setAll prefix table (setGlobal g (prefix ++ s) (LNum (of_uint n)))). rewrite set_out.
  - unfold value_of, setGlobal. cbn. rewrite String.eqb_refl. reflexivity.
  - intros m t I E. apply app_same in E. subst t. apply NI. apply in_map_iff. exists (m, s). split; [reflexivity|exact I].
Qed.
Lemma codes_nodup : NoDup (map snd optionCodes).
Proof. repeat (constructor; [cbn; intuition discriminate|]). constructor. Qed.
Lemma codes_e n s : In (n, s) optionCodes -> exists t, s = ("EDNS0" ++ t)%string.
Proof. intros I. cbn in I. repeat (destruct I as [[= <- <-]|I]; [eexists; cbn; reflexivity|]). contradiction. Qed.
Lemma small_number n : (n < 2 ^ 16)%N -> denotes (of_uint n) (Z.of_N n).
Proof. intros L. apply of_uint_exact. lia. Qed.

Lemma constants version types classes rcodes options g : Permutation options optionCodes -> NoDup (map snd types) -> NoDup (map snd classes) -> NoDup (map snd rcodes) ->
  Forall (fun x => fst x < 2 ^ 16)%N (types ++ classes ++ rcodes) ->
  let g' := RegisterConstants version types classes rcodes options g in
  (forall n s, In (n, s) types -> is_number (value_of g' ("Type" ++ s)) n) /\ (forall n s, In (n, s) classes -> is_number (value_of g' ("Class" ++ s)) n) /\
  (forall n s, In (n, s) rcodes -> is_number (value_of g' ("Rcode" ++ s)) n) /\ (forall n s, In (n, s) optionCodes -> is_number (value_of g' s) n) /\
  value_of g' "BuildVersion" = Some (LStr version) /\
  forall name, name <> "BuildVersion"%string -> (forall p s, In p ["Type"; "Class"; "Rcode"; "EDNS0"]%string -> name <> (p ++ s)%string) -> value_of g' name = value_of g name.
Proof.
  intros PM N1 N2 N3 SM g'. subst g'. unfold RegisterConstants.
  assert (NO : NoDup (map snd options)) by (eapply Permutation_NoDup; [apply Permutation_map, Permutation_sym, PM|exact codes_nodup]).
  assert (EO : forall n s, In (n, s) options -> exists t, s = ("EDNS0" ++ t)%string) by (intros n s I; eapply codes_e, Permutation_in; eauto).
  assert (SMALL : forall n s, In (n, s) (types ++ classes ++ rcodes) -> is_number (Some (LNum (of_uint n))) n).
  { intros n s I. eexists. split; [reflexivity|]. apply small_number. rewrite Forall_forall in SM. apply (SM _ I). }
  assert (SE : forall name G, (forall t, name <> ("EDNS0" ++ t)%string) -> value_of (setAll "" options G) name = value_of G name).
  { intros name G H. apply set_out. intros n s I E. destruct (EO n s I) as (t & ->). apply (H t). exact E. }
  assert (SO : forall p name G table, (forall t, name <> (p ++ t)%string) -> value_of (setAll p table G) name = value_of G name) by (intros p name G table H; apply set_out; intros n s _; apply H).
  split; [|split; [|split; [|split; [|split]]]].
  - intros n s I. rewrite SE, !SO, (set_in _ _ _ n s N1 I) by discriminate. apply (SMALL n s). apply in_app_iff. auto.
  - intros n s I. rewrite SE, SO, (set_in _ _ _ n s N2 I) by discriminate. apply (SMALL n s). rewrite !in_app_iff. auto.
  - intros n s I. rewrite SE, (set_in _ _ _ n s N3 I) by discriminate. apply (SMALL n s). rewrite !in_app_iff. auto.
  - intros n s I. rewrite (set_in "" options _ n s NO (Permutation_in _ (Permutation_sym PM) I)). eexists. split; [reflexivity|]. apply small_number.
    cbn in I. repeat (destruct I as [[= <- <-]|I]; [reflexivity|]). contradiction.
  - rewrite SE, !SO by discriminate. unfold value_of, setGlobal. reflexivity.
  - intros name NB H. rewrite SE, !SO by (intros t; apply H; cbn; tauto). unfold value_of, setGlobal. cbn. destruct (String.eqb_spec name "BuildVersion"); [contradiction|reflexivity].
Qed.

(** ** Client information *)
Lemma client_get ipString c name v : getClient ipString c name = Some v <-> In (name, v) (client_fields ipString c).
Proof.
  unfold getClient, client_fields. cbn [In].
  repeat match goal with |- context [String.eqb name ?x] => destruct (String.eqb_spec name x) as [->|]; [split; [intros [= <-]; intuition|intuition congruence]|] end.
  split; [discriminate|]. intuition congruence.
Qed.

(** ** Statements that fail *)
Lemma id_refuted : ~ forall far parseNumber numberText parseIP ipString e name w v e', edns_ok e -> In (name, w) (content e) -> getOption ipString e name = Some v ->
  setOption far parseNumber numberText parseIP e name v = Some e' -> e' = e.
Proof.
  intros H. specialize (H (fun _ _ => 0%N) (fun _ => None) (fun _ => ""%string) (fun _ => None) (fun _ => ""%string) (LLQ 1 1 0 9007199254740993 3600) "id"%string (ONum 64 9007199254740993)
    _ (LLQ 1 1 0 9007199254740992 3600) ltac:(repeat constructor) ltac:(cbn; tauto) eq_refl eq_refl). discriminate.
Qed.
Lemma expire_refuted : ~ forall far parseNumber numberText parseIP e v e', setOption far parseNumber numberText parseIP e "expire" v = Some e' -> hidden e' = Some (inl false).
Proof. intros H. specialize (H (fun _ _ => 0%N) (fun _ => None) (fun _ => ""%string) (fun _ => None) (EXPIRE 0 true) (LNum (Fin 3600 0)) (EXPIRE 3600 true) eq_refl). discriminate. Qed.
Lemma family_refuted : ~ forall far parseNumber numberText parseIP e v e' f ip, setOption far parseNumber numberText parseIP e "address" v = Some e' ->
  In ("family"%string, ONum 16 f) (content e') -> In ("address"%string, OAddr ip) (content e') -> length ip = 4 -> f = 1%N.
Proof.
  intros H. specialize (H (fun _ _ => 0%N) (fun _ => None) (fun _ => ""%string) (fun _ => Some [192; 0; 2; 0]%N) (SUBNET 2 24 0 []) (LStr "192.0.2.0") (SUBNET 2 24 0 [192; 0; 2; 0]%N) 2%N [192; 0; 2; 0]%N
    eq_refl ltac:(cbn; tauto) ltac:(cbn; tauto) eq_refl). discriminate.
Qed.

Lemma other_type far parseNumber numberText parseIP ipString mt e name v : mt <> kind_of e -> index ipString mt e name = None /\ newindex far parseNumber numberText parseIP mt e name v = None.
Proof. intros N. unfold index, newindex. destruct (okind_eq mt (kind_of e)); [contradiction|]. split; reflexivity. Qed.
Lemma errors far parseNumber numberText ipString parseIP typeToRR s known o s' : (forall n t, typeToRR n = Some t -> type_ok t) -> state_ok s -> Forall (reaches s) known ->
  epossible known o -> estep far parseNumber numberText ipString parseIP typeToRR s o = (s', None) -> s' = s.
Proof. intros TY OK K P E. destruct (estep_ok _ _ _ _ _ _ s known o s' None TY OK K P E) as (_ & _ & _ & H & _). apply H. reflexivity. Qed.
Lemma codes k n : assigned_code k = Some n -> exists s, In (k, s) code_names /\ In (n, s) optionCodes.
Proof. destruct k; intros [= <-]; (eexists; split; [cbn; repeat first [left; reflexivity|right]|cbn; tauto]). Qed.
Lemma error_text numberText v : match newError numberText v with Some s => text_of numberText v s /\ errorText s = LStr s | None => forall s, ~ text_of numberText v s end.
Proof.
  unfold newError. destruct (checkString numberText v) as [s|] eqn:E; [split; [apply text_iff, E|reflexivity]|]. intros s H. apply text_iff in H. congruence.
Qed.
