(** Writing back what was read, whole scripts, constants and client information *)
From Verif Require Import Base Bytes Dns Net LuaVal_model LuaVal_proofs LuaRR_model LuaRR_spec LuaRR_proofs LuaRR_proofs2 LuaMsg_model LuaMsg_spec LuaMsg_proofs LuaMsg_proofs2 LuaMsg_proofs3 LuaMsg_proofs4
  LuaEdns_model LuaEdns_spec LuaEdns_proofs.
From Coq Require Import Lia Permutation.
Local Open Scope N_scope.

Lemma close_exact x n : n <= 2 ^ 53 -> close x (Z.of_N n) -> denotes x (Z.of_N n).
Proof. intros L [[_ D]|[G _]]; [exact D|]. exfalso. change (2 ^ 53)%Z with (Z.of_N (2 ^ 53)) in G. apply N2Z.inj_lt in G. lia. Qed.
Lemma stores_same w x n m : n < 2 ^ w -> denotes x (Z.of_N n) -> stores w x m -> m = n.
Proof. intros B D [_ S]. rewrite (S (Z.of_N n) D); [apply N2Z.id|]. split; [lia|]. apply N2Z.inj_lt in B. rewrite N2Z.inj_pow in B. exact B. Qed.

Section Lua.
Variable far : N -> num -> N.
Variable parseNumber : string -> option num.
Variable numberText : num -> string.
Variable parseIP : string -> option bytes.
Variable ipString : bytes -> string.
Notation getOption := (getOption ipString).
Notation setOption := (setOption far parseNumber numberText parseIP).

Lemma self e name w : ip_text ipString parseIP -> edns_ok e -> In (name, w) (content e) -> keeps w ->
  exists v e' l1 w' l2, getOption e name = Some v /\ setOption e name v = Some e' /\ content e = l1 ++ (name, w) :: l2 /\ content e' = l1 ++ (name, w') :: l2 /\ same_oval w w' /\
    kind_of e' = kind_of e /\ hidden e' = hidden e.
Proof.
  intros IP OK I K. destruct (read_in parseNumber parseIP ipString e name w OK I) as (v & G & SH).
  assert (SZ : sized w) by (unfold edns_ok in OK; rewrite Forall_forall in OK; apply (OK _ I)).
  assert (A : oaccepts parseNumber numberText parseIP w v).
  { destruct SH as [b n x C|s|l l' F|ip]; [econstructor; left; reflexivity|econstructor; left; reflexivity| |].
    - constructor. clear - F. induction F as [|n u l l' (x & -> & _) F IH]; intros z IN; [contradiction|]. destruct IN as [<-|IN]; eauto.
    - destruct K as [L B]. destruct (IP ip L B) as (ip' & P & _). econstructor; [left; reflexivity|exact P]. }
  destruct (proj2 (accepts far parseNumber numberText parseIP e name v)) as (e' & S); [exists w; auto|].
  destruct (write far parseNumber numberText parseIP e name v e' S) as (l1 & old & new & l2 & E & E' & T & KE & HE).
  assert (IE : In (name, old) (content e)) by (rewrite E; apply in_app_iff; right; left; reflexivity). rewrite <- (content_fun _ _ _ _ I IE) in E, T.
  exists v, e', l1, new, l2. split; [exact G|]. split; [exact S|]. split; [exact E|]. split; [exact E'|]. split; [|split; assumption].
  clear - SH T K SZ IP. destruct SH as [b n x C|s|l l' F|ip]; inversion T; subst.
  - match goal with H : number_of _ (LNum _) _ |- _ => destruct H as [H|(? & H & _)]; [injection H as <-|discriminate] end. left. f_equal. symmetry.
    eapply stores_same; [exact SZ|apply close_exact; [exact K|exact C]|assumption].
  - match goal with H : text_of _ (LStr _) _ |- _ => destruct H as [H|(? & H & _)]; [injection H as <-|discriminate] end. left. reflexivity.
  - left. f_equal. clear T K IP. match goal with H : Forall2 _ l' ?a |- _ => revert SZ a H end. induction F as [|n u l l' (x & -> & D) F IH]; intros SZ a H; inversion H as [|? m ? l2 HX HL]; subst; [reflexivity|].
    inversion SZ; subst. destruct HX as (x' & EX & ST). injection EX as <-. f_equal; [symmetry; eapply (stores_same 8); [eassumption|exact D|exact ST]|]. apply IH; assumption.
  - match goal with H : text_of _ (LStr _) _ |- _ => destruct H as [H|(? & H & _)]; [injection H as <-|discriminate] end.
    destruct K as [L B]. destruct (IP ip L B) as (ip' & P & SI). right. do 2 eexists. split; [reflexivity|]. split; [reflexivity|]. congruence.
Qed.

(** ** Scripts *)
Variable typeToRR : N -> option (list ftype).
Notation estep := (estep far parseNumber numberText ipString parseIP typeToRR).
Notation step := (step far parseNumber numberText ipString parseIP).
Definition links (h : store) (n : nat) : Prop := Forall (fun r => Forall (fun o => (o < n)%nat) (options_of r)) (records h).

Lemma field_fun r g1 k1 v1 g2 k2 v2 : record_ok r -> In (g1, k1, v1) (fields r) -> In (g2, k2, v2) (fields r) -> lower g1 = lower g2 -> v1 = v2.
Proof.
  intros OK A B E. destruct (locate r g1 k1 v1 OK A) as (i1 & _ & _ & F1 & V1 & _). destruct (locate r g2 k2 v2 OK B) as (i2 & _ & _ & F2 & V2 & _).
  rewrite E in F1. rewrite F1 in F2. injection F2 as <- <-. congruence.
Qed.
Lemma kind_opaque (k : kind) : k = KOpaque \/ k <> KOpaque.
Proof. destruct k; auto; right; discriminate. Qed.
Lemma in_options r o : In o (options_of r) <-> exists g k l, In (g, k, VEdns l) (fields r) /\ In o l.
Proof.
  unfold options_of. rewrite in_flat_map. split.
  - intros ([[g k] v] & I & O). cbn in O. destruct v; try contradiction. eauto 6.
  - intros (g & k & l & I & O). exists (g, k, VEdns l). split; [exact I|exact O].
Qed.
Lemma options_taken known v l : made_of known v -> takes parseIP v (VEdns l) -> forall o, In o l -> In (ROption o) known.
Proof. intros M T o I. inversion T; subst. apply M. cbn. apply in_flat_map. exists (LUser (ROption o)). split; [apply in_map_iff; eauto|left; reflexivity]. Qed.
Lemma opt_fields r v : opt_is r v -> fields r = [("Option"%string, KEdns, VEdns (ov_options v))].
Proof. intros (O & _ & _ & V). unfold fields. rewrite O, V. reflexivity. Qed.


(** What an operation does to the records *)
Inductive touched (h : store) (o : op) (h' : store) : Prop :=
| touched_no : records h' = records h -> touched h o h'
| touched_new : forall r, records h' = records h ++ [r] -> options_of r = [] -> touched h o h'
| touched_opt : forall i name v r r' b, o = OOptSet i name v -> nth_error (records h) i = Some r -> setOPT far parseNumber r name v = (r', b) -> records h' = put_nth i r' (records h) -> touched h o h'
| touched_rr : forall i name v r r' b, o = ORSet i name v -> nth_error (records h) i = Some r -> LuaRR_model.newindex far parseIP r name v = (r', b) -> records h' = put_nth i r' (records h) -> touched h o h'.
Lemma opt_none n b : options_of (RR (Hdr "." 41 n b 0) optType [VHdr; VEdns []]) = [].
Proof. reflexivity. Qed.
Lemma touch h o h' res : step h o = (h', res) -> touched h o h'.
Proof.
  destruct o as [|a name|a name v|a b|a id v w|a|a v w|args|a i name|a i name v|args|o name|o name v|o name|o name v]; cbn [LuaMsg_model.step];
    try solve [intros [= <- <-]; apply touched_no; reflexivity].
  - destruct (setMsg far h a name v) as [h1 b] eqn:S. intros [= <- <-]. apply touched_no. revert S. unfold setMsg. destruct (nth_error (msgs h) a) as [[]|]; [|intros [= <- <-]; reflexivity].
    cbv zeta. repeat match goal with |- context [String.eqb name ?x] => destruct (String.eqb name x) end; try solve [intros [= <- <-]; reflexivity];
      repeat (cbn [alloc]; match goal with |- (match ?x with _ => _ end) = _ -> _ => destruct x end); cbn [alloc]; try solve [intros [= <- <-]; reflexivity].
  - intros [= <- <-]. apply touched_no. unfold setReply. destruct (nth_error (msgs h) a); [|reflexivity]. destruct (nth_error (msgs h) b); [|reflexivity]. destruct (nth _ (arrays h) []); reflexivity.
  - destruct (setQuestion far parseNumber numberText h a id v w) as [h1 b] eqn:S. intros [= <- <-]. apply touched_no. revert S. unfold setQuestion.
    repeat (cbn [alloc alloc_record]; match goal with |- (match ?x with _ => _ end) = _ -> _ => destruct x end); try solve [intros [= <- <-]; reflexivity].
  - destruct (setEdns0 far parseNumber h a v w) as [h1 b] eqn:S. intros [= <- <-]. revert S. unfold setEdns0.
    repeat (cbn [alloc alloc_record]; match goal with |- (match ?x with _ => _ end) = _ -> _ => destruct x end); try solve [intros [= <- <-]; apply touched_no; reflexivity].
    cbn [alloc_record]. intros [= <- <-]. eapply touched_new; reflexivity.
  - destruct (newQuestion far parseNumber numberText args); cbn [alloc]; intros [= <- <-]; apply touched_no; reflexivity.
  - destruct (setQuestionField far parseNumber numberText h a i name v) as [h1 b] eqn:S. intros [= <- <-]. apply touched_no. destruct b; [|apply qset_refused in S; subst; reflexivity].
    destruct (qset _ _ _ _ _ _ _ _ _ S) as (q & q' & _ & _ & -> & _). reflexivity.
  - destruct (newOPT far parseNumber args) as [r|] eqn:E; [|intros [= <- <-]; apply touched_no; reflexivity]. cbn [alloc_record]. intros [= <- <-].
    destruct (opt_new _ _ _ _ E) as (n & b & V & _). eapply touched_new; [reflexivity|]. unfold options_of. rewrite (opt_fields _ _ V). reflexivity.
  - destruct (nth_error (records h) o) as [r|] eqn:E; [|intros [= <- <-]; apply touched_no; reflexivity]. destruct (setOPT far parseNumber r name v) as [r' b] eqn:S. intros [= <- <-].
    eapply touched_opt; [reflexivity|exact E|exact S|reflexivity].
  - destruct (nth_error (records h) o) as [r|] eqn:E; [|intros [= <- <-]; apply touched_no; reflexivity].
    destruct (LuaRR_model.newindex far parseIP r name v) as [r' b] eqn:S. intros [= <- <-]. eapply touched_rr; [reflexivity|exact E|exact S|reflexivity].
Qed.
Lemma assigned_options known name v r r' : made_of known v -> assigned parseIP name v r r' -> forall o, In o (options_of r') -> In o (options_of r) \/ In (ROption o) known.
Proof.
  intros M A o I. destruct A as [s _ _ ->|x n _ _ _ ->|x n _ _ _ ->|a b g k old new F F' _ T _ _]; [left; exact I..|].
  unfold options_of in *. rewrite F' in I. rewrite F. rewrite flat_map_app in *. cbn [flat_map snd] in *. apply in_app_iff in I. destruct I as [I|I]; [left; apply in_app_iff; left; exact I|].
  apply in_app_iff in I. destruct I as [I|I]; [|left; apply in_app_iff; right; apply in_app_iff; right; exact I].
  right. destruct new; try contradiction. eapply options_taken; eauto.
Qed.
Lemma base_links h n known o h' res : store_ok h -> (forall a, In (ROption a) known -> (a < n)%nat) -> possible known o -> links h n -> step h o = (h', res) -> links h' n.
Proof.
  intros OK K P L S. unfold links in *. assert (NX : forall r, In r (records h) -> Forall (fun o => (o < n)%nat) (options_of r)) by (rewrite Forall_forall in L; exact L).
  destruct (touch h o h' res S) as [->|r -> O|i name v r r' b -> E SO ->|i name v r r' b -> E SO ->]; [exact L| | |].
  - apply Forall_app. split; [exact L|]. constructor; [rewrite O; constructor|constructor].
  - apply Forall_put; [exact L|]. destruct P as [_ M]. pose proof (NX r (nth_error_In _ _ E)) as NR. destruct b; [|apply opt_refused in SO; subst; exact NR].
    assert (O : is_opt r). { apply opt_iff. unfold setOPT in SO. destruct (isOPT r); [reflexivity|discriminate]. }
    destruct (opt_view r (record_in h i r OK E) O) as (view & VW). destruct (opt_write _ _ _ _ _ _ _ VW SO) as (view' & VW' & A & _).
    unfold options_of in *. rewrite (opt_fields _ _ VW'). rewrite (opt_fields _ _ VW) in NR. cbn in NR |- *. rewrite app_nil_r in *.
    destruct A; try exact NR. cbn. rewrite Forall_forall. intros x IX. apply K, M. cbn. apply in_flat_map. exists (LUser (ROption x)). split; [apply in_map_iff; eauto|left; reflexivity].
  - apply Forall_put; [exact L|]. destruct P as [_ M]. pose proof (NX r (nth_error_In _ _ E)) as NR. destruct b; [|apply newindex_refused in SO; subst; exact NR].
    destruct (newindex_assigned far parseIP r name v r' (record_in h i r OK E) SO) as [[[_ ->]|A] _]; [exact NR|]. rewrite Forall_forall in *. intros x IX.
    destruct (assigned_options known name v r r' M A x IX) as [I|I]; [apply NR, I|apply K, I].
Qed.
Lemma shown_options v lv a : shows ipString v lv -> In (ROption a) (refs_of lv) -> exists l, v = VEdns l /\ In a l.
Proof.
  intros S I. destruct S as [s|n x D|n x D|n x D|n x D|l l' F|l| |ip|l l' F]; try contradiction; cbn in I; apply in_flat_map in I; destruct I as (u & IU & IR).
  - exfalso. induction F as [|n w l l' (x & -> & _) F IH]; [contradiction|]. destruct IU as [<-|IU]; [contradiction|auto].
  - exfalso. apply in_map_iff in IU. destruct IU as (s & <- & _). contradiction.
  - exists l. split; [reflexivity|]. induction F as [|n w l l' -> F IH]; [contradiction|]. destruct IU as [<-|IU]; [destruct IR as [[= ->]|[]]; left; reflexivity|right; auto].
Qed.
Lemma get_options r name v a : record_ok r -> get ipString r name = Some v -> In (ROption a) (refs_of v) -> In a (options_of r).
Proof.
  intros OK G I. destruct (in_dec string_dec name header_names) as [H|H].
  - exfalso. destruct (get_header ipString r) as (A & B & C & D & E). cbn in H.
    destruct H as [<-|[<-|[<-|[<-|[<-|[]]]]]]; [rewrite A in G|rewrite B in G|rewrite C in G|rewrite D in G|rewrite E in G]; injection G as <-; contradiction.
  - pose proof G as G'. rewrite get_other in G by exact H. destruct (find_field name (rrDB (rr_type r))) as [[index k]|] eqn:F; [|discriminate].
    destruct (located r name index k OK F) as (g & x & <- & IX). apply in_options.
    destruct (kind_opaque k) as [->|NK].
    + exfalso. assert (N : get ipString r (lower g) = None) by (apply read_none; [exact OK|]; split; [exact H|]; intros g2 k2 v2 I2 E2;
        destruct (locate r g2 k2 v2 OK I2) as (i2 & _ & _ & F2 & _); rewrite E2, F in F2; congruence). congruence.
    + destruct (read_field ipString r g k x OK IX NK) as (lv & GL & SH). rewrite G' in GL. injection GL as <-. destruct (shown_options _ _ _ SH I) as (l & -> & IL). eauto 6.
Qed.
Lemma getopt_options r name v a : record_ok r -> getOPT r name = Some v -> In (ROption a) (refs_of v) -> In a (options_of r).
Proof.
  intros OK G I. assert (O : is_opt r). { apply opt_iff. unfold getOPT in G. destruct (isOPT r); [reflexivity|discriminate]. }
  destruct (opt_view r OK O) as (view & VW). unfold options_of. rewrite (opt_fields _ _ VW). cbn. rewrite app_nil_r. destruct VW as (_ & _ & _ & V). revert G. unfold getOPT.
  destruct (negb (isOPT r)); [discriminate|]. rewrite V.
  repeat match goal with |- context [String.eqb name ?x] => destruct (String.eqb name x); try solve [intros H; injection H as <-; contradiction] end; [|discriminate].
  intros [= <-]. cbn in I. apply in_flat_map in I. destruct I as (u & IU & IR). apply in_map_iff in IU. destruct IU as (o & <- & IO). destruct IR as [[= <-]|[]]. exact IO.
Qed.
Lemma msg_options h a name v b : store_ok h -> getMsg h a name = Some v -> ~ In (ROption b) (refs_of v).
Proof.
  intros OK G I. assert (LA : (a < length (msgs h))%nat) by (unfold getMsg in G; destruct (nth_error (msgs h) a) eqn:E; [eapply bound, E|discriminate]).
  pose proof (LuaMsg_proofs.read h a name OK LA) as R. rewrite G in R. destruct R as [(p & w & _ & _ & S)|[_ ->]]; [|contradiction].
  destruct S as [z x D|bb|qs l F|os l F]; [contradiction|contradiction| |]; cbn in I; clear G; induction F as [|q u qs l E F IH]; try contradiction; cbn in I; apply in_app_iff in I; destruct I as [I|I]; auto.
  - destruct E as (c & j & -> & _). destruct I as [I|[]]. discriminate.
  - cbn in E; rewrite E in I. destruct I as [I|[]]. discriminate.
Qed.
Lemma base_result h n known o h' v a : store_ok h -> possible known o -> links h n -> step h o = (h', Some v) -> In (ROption a) (refs_of v) -> (a < n)%nat.
Proof.
  intros OK P L S I. assert (NX : forall o r, nth_error (records h) o = Some r -> In a (options_of r) -> (a < n)%nat).
  { intros o' r E IR. unfold links in L. rewrite Forall_forall in L. specialize (L r (nth_error_In _ _ E)). rewrite Forall_forall in L. apply L, IR. }
  destruct o as [|b name|b name w|b c|b id w u|b|b w u|args|b i name|b i name w|args|o name|o name w|o name|o name w]; cbn [LuaMsg_model.step] in S;
    repeat match type of S with (let '(_, _) := ?x in _) = _ => destruct x as [? []] | match ?x with Some _ => _ | None => _ end = _ => destruct x eqn:? end;
    cbn [alloc alloc_record] in S; try discriminate; try solve [injection S as _ <-; exfalso; cbn in I; destruct I as [I|[]]; discriminate]; try solve [injection S as _ <-; contradiction].
  - exfalso. injection S as _ G. eapply msg_options; eauto.
  - exfalso. injection S as _ <-. unfold isEdns0 in I. destruct (nth_error (msgs h) b); [|contradiction]. destruct (lastOPT _ _ _); try contradiction.
    all: try (destruct I as [I|[]]; discriminate).
  - exfalso. injection S as _ G. unfold getQuestion in G. destruct (deref_question h b i); [|discriminate].
    repeat match type of G with context [String.eqb name ?x] => destruct (String.eqb name x); [injection G as <-; contradiction|] end. discriminate.
  - injection S as _ G. destruct (nth_error (records h) o) as [r|] eqn:E; [|discriminate]. eapply NX; [exact E|]. eapply getopt_options; eauto. eapply record_in; eauto.
  - injection S as _ G. destruct (nth_error (records h) o) as [r|] eqn:E; [|discriminate]. eapply NX; [exact E|]. eapply get_options; eauto. eapply record_in; eauto.
Qed.
End Lua.
