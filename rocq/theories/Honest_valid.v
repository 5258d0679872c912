(** Signed answers, unsigned ones and denials under a faithful resolver: what the validator says of them. *)
From Verif Require Import Base Base_proofs Bytes Dns Name_model Name_spec Name_proofs Denial_model Denial_spec Denial_proofs Keystore_model Dnssec_model Dnssec_spec Dnssec_proofs Dnssec_sys Honest_spec Honest_proofs.
From Coq Require Import ZArith ZifyBool ZifyNat ZifyN.
Open Scope N_scope.

Lemma filter_two {A} (f g : A -> bool) l : filter f (filter g l) = filter (fun x => g x && f x) l.
Proof. induction l as [|x l IH]; cbn; [reflexivity|]. destruct (g x); cbn; [|exact IH]. destruct (f x); rewrite IH; reflexivity. Qed.
Lemma names_lower s n o : names s n -> name_ok o -> (lower s = show o <-> n = o).
Proof.
  intros (n' & O & -> & <-) Oo. rewrite show_lower by exact O. split; [intros E; apply show_inj; [apply lname_ok, O|exact Oo|exact E]|intros ->; reflexivity].
Qed.
(** The group of a record *)
Definition group_for (sec : list rr) (r : rr) (g : group) : Prop := g_type g = rr_type r /\ forall o, names (rr_name r) o ->
  g_rrs g = same_set sec o (rr_type r) /\
  (forall sig signer, In sig sec -> names (rr_name sig) o -> covers sig (rr_type r) signer -> In sig (g_sigs g)) /\
  (forall sig, In sig (g_sigs g) -> In sig sec /\ names (rr_name sig) o /\ exists signer, covers sig (rr_type r) signer).
Lemma group_is sec g r : section_ok sec -> In g (groups sec) -> In r (g_rrs g) -> group_for sec r g.
Proof.
  intros SO I IR. unfold groups in I. apply in_map_iff in I. destruct I as (k & <- & _). cbn [g_rrs g_type g_sigs] in *. apply filter_In in IR. destruct IR as [IR K]. apply key_eqb_eq in K. subst k. unfold group_for. cbn [g_rrs g_type g_sigs]. split; [reflexivity|]. intros o NM.
  destruct (names_canonical _ _ NM) as (En & On & Ln & _). apply filter_In in IR. destruct IR as [IR _]. split; [|split].
  - rewrite filter_two. unfold same_set. apply filter_ext_in. intros x IX. rewrite signature_is. rewrite <- andb_assoc. f_equal. destruct (SO x IX) as [(m & NX & _) _]. destruct (names_canonical _ _ NX) as (Em & Om & _).
    apply eq_true_iff_eq. rewrite key_eqb_eq, andb_true_iff, String.eqb_eq, N.eqb_eq, (names_lower _ m o NX On). unfold rr_key. rewrite En, Em. split.
    + intros [= E1 E2]. split; [|auto]. symmetry. apply show_inj; assumption.
    + intros [-> ->]. reflexivity.
  - intros sig signer IS NS C. apply filter_In. destruct (covers_sig _ _ _ C) as (X & Y & _). split; [apply filter_In; auto|]. apply key_eqb_eq. unfold rr_key, sig_key. destruct (names_canonical _ _ NS) as (Es & _). congruence.
  - intros sig IS. apply filter_In in IS. destruct IS as [IS K]. apply key_eqb_eq in K. apply filter_In in IS. destruct IS as [IS X]. split; [exact IS|]. unfold rr_key, sig_key in K. injection K as K1 K2. split.
    + destruct (SO sig IS) as [(m & NX & _) _]. destruct (names_canonical _ _ NX) as (Em & Om & _). replace o with m; [exact NX|]. apply show_inj; congruence.
    + unfold is_rrsig, sig_covered in *. destruct (rr_data sig) eqn:E; try discriminate X. rewrite K2. unfold covers. rewrite E. eexists _, _, _, _, _, _, _, _. reflexivity.
Qed.
Lemma covered_in ts t : contains ts t = true <-> In t ts.
Proof. unfold contains. rewrite existsb_exists. split; [intros (x & I & E); apply N.eqb_eq in E; subst; exact I|intros I; exists t; split; [exact I|apply N.eqb_refl]]. Qed.
Lemma bitmap ts : In 2 ts -> ~ In 43 ts -> ~ In 6 ts -> insecureBitmap ts = true.
Proof. intros A B C. unfold insecureBitmap. pose proof (covered_in ts 2). pose proof (covered_in ts 43). pose proof (covered_in ts 6). unfold TypeNS, TypeDS, TypeSOA. destruct (contains ts 2), (contains ts 43), (contains ts 6); cbn; intuition congruence. Qed.
Lemma zones_app p c : name_ok (p ++ c) -> exists B, suffix_zones (map show_label (p ++ c)) = suffix_zones (map show_label c) ++ B.
Proof.
  induction p as [|l p IH]; intros O; [exists []; rewrite app_nil_r; reflexivity|]. inversion O as [|? ? _ Op]; subst. destruct (IH Op) as (B & E). cbn [app map suffix_zones]. rewrite E. eexists. rewrite <- app_assoc. reflexivity.
Qed.
Lemma zones_cons l n : name_ok (l :: n) -> suffix_zones (map show_label (l :: n)) = suffix_zones (map show_label n) ++ [show (l :: n)].
Proof.
  intros O. cbn [map suffix_zones]. change (show_label l :: map show_label n) with (map show_label (l :: n)). unfold fqdn, isFqdn. rewrite fq_join_labels, join_show by exact O. reflexivity.
Qed.

Definition is_denial (g : group) : bool := (g_type g =? 47) || (g_type g =? 50).
Lemma filter_split {A} (f g : A -> bool) l : (forall x, In x l -> f x = true -> g x = false) -> Permutation (filter f l ++ filter g l) (filter (fun x => f x || g x) l).
Proof.
  induction l as [|x l IH]; intros D; [constructor|]. assert (IH' := IH (fun y I => D y (or_intror I))). cbn. destruct (f x) eqn:F; cbn [orb].
  - rewrite (D x (or_introl eq_refl) F). cbn. constructor. exact IH'.
  - destruct (g x); [|exact IH']. apply Permutation_sym, Permutation_cons_app, Permutation_sym. exact IH'.
Qed.
Lemma keyed_parts {A} (key : A -> string * N) l ks : NoDup ks ->
  Permutation (flat_map (fun k => filter (fun x => key_eqb k (key x)) l) ks) (filter (fun x => existsb (fun k => key_eqb k (key x)) ks) l).
Proof.
  induction 1 as [|k ks NI _ IH]; cbn [flat_map existsb].
  - clear. induction l as [|x l IH]; [constructor|exact IH].
  - eapply Permutation_trans; [apply Permutation_app_head, IH|]. apply filter_split. intros x _ E. apply key_eqb_eq in E. apply not_true_iff_false. intros C. apply existsb_exists in C. destruct C as (k' & I & E'). apply key_eqb_eq in E'. apply NI. congruence.
Qed.
Lemma dedup_nodup l : NoDup (dedup l).
Proof. induction l as [|k l IH]; cbn; constructor; [intros I; apply filter_In in I; destruct I as [_ I]; rewrite (proj2 (key_eqb_eq k k) eq_refl) in I; discriminate I|apply NoDup_filter, IH]. Qed.
Lemma groups_denial sec : Permutation (flat_map (fun g => if is_denial g then g_rrs g else []) (groups sec)) (filter denial sec).
Proof.
  unfold groups. set (rrs := filter (fun r => negb (is_rrsig r)) sec). set (p := fun k : string * N => (snd k =? 47) || (snd k =? 50)).
  assert (E : flat_map (fun g => if is_denial g then g_rrs g else []) (map (fun k => Group (fst k) (snd k) (filter (fun r => key_eqb k (rr_key r)) rrs) (filter (fun r => key_eqb k (sig_key r)) (filter is_rrsig sec))) (dedup (map rr_key rrs))) =
              flat_map (fun k => filter (fun x => key_eqb k (rr_key x)) rrs) (filter p (dedup (map rr_key rrs)))).
  { induction (dedup (map rr_key rrs)) as [|k ks IH]; [reflexivity|]. cbn [map flat_map filter]. rewrite IH. unfold is_denial, p at 2. cbn [g_type g_rrs]. destruct ((snd k =? 47) || (snd k =? 50)); reflexivity. }
  rewrite E. eapply Permutation_trans; [apply keyed_parts, NoDup_filter, dedup_nodup|].
  replace (filter denial sec) with (filter (fun r => p (rr_key r)) rrs).
  - erewrite filter_ext_in; [apply Permutation_refl|]. intros x IX. apply eq_true_iff_eq. rewrite existsb_exists. split.
    + intros (k & I & K). apply key_eqb_eq in K. subst k. apply filter_In in I. apply I.
    + intros PK. exists (rr_key x). split; [|apply key_eqb_eq; reflexivity]. apply filter_In. split; [|exact PK]. apply (proj2 (in_dedup (fun s _ _ _ => s) _ _)). apply in_map, IX.
  - unfold rrs. rewrite filter_two. apply filter_ext. intros r. unfold denial. rewrite signature_is. reflexivity.
Qed.
Lemma nsec_nothing qname qtype rcode : nsecProvesDenial [] qname qtype rcode = false.
Proof. reflexivity. Qed.
Lemma nsec3_nothing hashName qname qtype rcode : nsec3ProvesDenial hashName [] qname qtype rcode = false.
Proof. reflexivity. Qed.

Section HONEST.
Variable verify : rr -> rr -> list rr -> bool.
Variable keyTag : rr -> N.
Variable toDS : rr -> N -> option string.
Variable hashName : string -> N -> N -> string -> string.
Variable anchors : list anchor.
Variable W : msg -> result -> Prop.
Variables t0 T : N.
Variable tr : tree.
Variable secure : name -> Prop.
Hypothesis H : faithful verify keyTag toDS anchors W t0 T tr secure.
Notation lasting := (lasting verify keyTag t0 T).
Notation verifyRRSIG := (verifyRRSIG verify keyTag).
Notation hp := (hp anchors W t0 T tr secure).
Notation build := (buildChainOfTrust verify keyTag toDS hashName).
Notation unsigned_cut := (unsigned_cut verify keyTag hashName W t0 T tr secure).
Notation proper := (proper verify keyTag t0 T tr secure).
Notation plain := (plain verify keyTag hashName W t0 T tr secure).

Lemma build_hp zone : hp (chain_right tr secure zone) (build zone).
Proof. apply (chain_hp _ _ _ _ _ _ _ _ _ _ H). Qed.
Lemma build_for zone n : secure n -> canonicalName zone = show n -> hp (fun r => r = inr (t_zsk tr n, t_ksk tr n)) (build zone).
Proof. intros S E. eapply hp_conseq; [apply build_hp|]. intros r C. apply C; assumption. Qed.
Lemma any_hp' {R} (Q : R -> Prop) zone f : (forall c, hp Q (f c)) -> hp Q (bind (build zone) f).
Proof. intros G. eapply hp_seq; [apply build_hp|]. intros r _. apply G. Qed.
Lemma sub_of n o : name_ok o -> lname o = o -> secure n -> suffix n o -> isSubDomain (show n) (show o) = true.
Proof. intros O L S (pre & E). destruct (secure_name _ _ _ _ _ _ _ _ _ H n S) as (On & Ln & _). apply (isSubDomain_show n o On O). exists pre. rewrite Ln, L. exact E. Qed.

(** A signature that lets the set pass *)
Definition signs (o : name) (rrset : list rr) (sig : rr) : Prop := exists n, names (sig_signer sig) n /\ secure n /\ suffix n o /\ lasting (t_zsk tr n) rrset sig.
Lemma rrset_hp o rrset sigs : name_ok o -> lname o = o -> (exists sig, In sig sigs /\ signs o rrset sig) -> forall last, hp (fun r => r = None) (rrset_loop verify keyTag toDS hashName (show o) rrset sigs last).
Proof.
  intros O L. induction sigs as [|s sigs IH]; intros (x & I & SG) last; [destruct I|]. cbn [rrset_loop]. destruct I as [->|I].
  - destruct SG as (n & NM & S & SF & LA). destruct (names_canonical _ _ NM) as (En & _ & _ & Dn). rewrite En, (sub_of n o O L S SF). cbn [negb]. eapply hp_seq; [apply (build_for _ n S)|].
    + unfold dbl in Dn. rewrite En in Dn. exact Dn.
    + intros r ->. cbn. intros t A B. rewrite (good_verify _ _ _ _ _ _ (LA t A B)). reflexivity.
  - assert (IH' : forall last, hp (fun r => r = None) (rrset_loop verify keyTag toDS hashName (show o) rrset sigs last)) by (apply IH; eauto).
    destruct (negb _); [apply IH'|]. apply any_hp'. intros [e|[z k]]; [apply IH'|]. cbn. intros t _ _. destruct (verifyRRSIG s z rrset t); [reflexivity|apply IH'].
Qed.
Lemma ancestor_hp o rrset sigs : name_ok o -> lname o = o -> (exists sig, In sig sigs /\ signs o rrset sig) -> hp (fun b => b = true) (signedFromAncestor verify keyTag toDS hashName rrset sigs (show o)).
Proof.
  intros O L. induction sigs as [|s sigs IH]; intros (x & I & SG); [destruct I|]. cbn [signedFromAncestor]. destruct I as [->|I].
  - destruct SG as (n & NM & S & SF & LA). destruct (names_canonical _ _ NM) as (En & _ & _ & Dn). rewrite En, (sub_of n o O L S SF). cbn [negb]. eapply hp_seq; [apply (build_for _ n S)|].
    + unfold dbl in Dn. rewrite En in Dn. exact Dn.
    + intros r ->. cbn. intros t A B. rewrite (good_verify _ _ _ _ _ _ (LA t A B)). reflexivity.
  - assert (IH' := IH (ex_intro _ x (conj I SG))). destruct (negb _); [apply IH'|]. apply any_hp'. intros [e|[z k]]; [apply IH'|]. cbn. intros t _ _. destruct (verifyRRSIG s z rrset t); [reflexivity|apply IH'].
Qed.

(** ** Unsigned zones *)
Lemma no_ds_denies d n : name_ok n -> lname n = n -> no_ds hashName d n -> (rr_type d =? 47) || (rr_type d =? 50) = true /\ denies_ds hashName d (show n) = true.
Proof.
  intros O L [(next & ts & TY & NM & D & A & B & C)|(alg & fl & it & salt & next & ts & TY & D & M)]; rewrite TY; (split; [reflexivity|]); unfold denies_ds, as_nsec, as_nsec3; rewrite D; cbn [existsb orb].
  - unfold nsecDeniesDS. cbn. rewrite (names_root_canonical _ _ NM), String.eqb_refl, (bitmap ts A B C). reflexivity.
  - rewrite orb_false_r. unfold nsec3DeniesDS. destruct M as [(-> & A & B & C)|(-> & OD & CV)]; cbn [h_types h_flags].
    + apply bitmap; assumption.
    + rewrite CV, N.bit0_odd, OD. reflexivity.
Qed.
Lemma prove_secure l n : secure (l :: n) -> hp (fun r => r = inr false) (proveNoDS verify keyTag toDS hashName (show (l :: n))).
Proof.
  intros S. unfold proveNoDS. eapply hp_seq; [apply (ds_hp _ _ _ _ _ _ _ _ _ H)|]. intros r D. destruct (secure_name _ _ _ _ _ _ _ _ _ H _ S) as (O & L & _).
  destruct (D l n S) as (ds & sigs & resp & sig & -> & _ & NE & _); [rewrite canonicalName_show, L by exact O; reflexivity|]. destruct ds; [contradiction|reflexivity].
Qed.
Lemma prove_cut l n : unsigned_cut l n -> hp (fun r => r = inr true) (proveNoDS verify keyTag toDS hashName (show (l :: n))).
Proof.
  intros (S & O & L & ND & G). unfold proveNoDS.
  assert (CS : canonicalName (show (l :: n)) = show (l :: n)) by (rewrite canonicalName_show, L by exact O; reflexivity).
  apply (hp_seq _ _ _ _ _ _ (fun r => exists sigs resp d o sig signer, r = Some ([], sigs, resp) /\ section_ok (m_ns resp) /\
    In d (m_ns resp) /\ no_ds hashName d (l :: n) /\ names (rr_name d) o /\ In sig (m_ns resp) /\ names (rr_name sig) o /\ covers sig (rr_type d) signer /\
    lasting (t_zsk tr n) (same_set (m_ns resp) o (rr_type d)) sig)).
  - apply lookupDS_hp. intros r HW. apply G in HW; [|unfold asks_for; rewrite key_question, CS; reflexivity]. destruct HW as (a & d & o & sig & signer & -> & E & SO & ID & NO & NM & IS & NS & C & LA).
    destruct (N.eqb_spec (m_rcode a) 0) as [RC|RC]; eexists _, a, d, o, sig, signer; (split; [|auto 10]); [rewrite digest_is, (E RC); reflexivity|reflexivity].
  - intros r (sigs & resp & d & o & sig & signer & -> & SO & ID & NO & NM & IS & NS & C & LA). inversion ND as [|? ? Dl _]; subst. rewrite parent_show by assumption. eapply hp_seq; [apply (build_for _ n S)|].
    + destruct (secure_name _ _ _ _ _ _ _ _ _ H n S) as (On & Ln & _). rewrite canonicalName_show, Ln by exact On. reflexivity.
    + intros r ->. cbn [Honest_proofs.hp]. intros t A B. assert (V : verifyDSDenial verify keyTag hashName resp (show (l :: n)) (t_zsk tr n) t = true); [|rewrite V; reflexivity].
      destruct (no_ds_denies d (l :: n) O L NO) as [TY DN]. assert (NSG : is_rrsig d = false).
      { destruct (is_rrsig d) eqn:X; [|reflexivity]. unfold is_rrsig in X. unfold denies_ds, as_nsec, as_nsec3 in DN. destruct (rr_data d); discriminate. }
      destruct (group_of hashName (m_ns resp) d ID NSG) as (g & IG & RG). destruct (group_is _ g d SO IG RG) as (GT & GF). destruct (GF o NM) as (ER & GS & _).
      unfold verifyDSDenial. apply existsb_exists. exists g. split; [exact IG|]. rewrite GT. unfold TypeNSEC, TypeNSEC3. rewrite TY. cbn [andb]. apply andb_true_iff. split.
      * unfold verifyAnyRRSIG. apply existsb_exists. exists sig. split; [apply (GS sig signer); assumption|]. rewrite ER. apply good_verify, LA; assumption.
      * apply existsb_exists. exists d. rewrite CS. auto.
Qed.
Notation loop := (insecure_loop verify keyTag toDS hashName).
Lemma loop_secure Q n : secure n -> forall rest, hp Q (loop rest) -> hp Q (loop (suffix_zones (map show_label n) ++ rest)).
Proof.
  induction n as [|l n IH]; intros S rest G; [exact G|]. destruct (secure_name _ _ _ _ _ _ _ _ _ H _ S) as (O & _). rewrite zones_cons by exact O. rewrite <- app_assoc. apply IH; [destruct H as (_ & D & _); apply (D l n S)|].
  cbn [app insecure_loop]. eapply hp_seq; [apply prove_secure, S|]. intros r ->. exact G.
Qed.
Lemma insecure_hp name o l n : names name o -> unsigned_cut l n -> suffix (l :: n) o -> hp (fun r => r = Some Insecure) (checkInsecureDelegation verify keyTag toDS hashName name).
Proof.
  intros NM U (pre & ->). destruct (names_canonical _ _ NM) as (E & O & _ & _). unfold checkInsecureDelegation. rewrite E. cbv zeta. destruct (String.eqb_spec (show (pre ++ l :: n)) ".") as [R|_].
  { apply (show_dot _ O) in R. destruct pre; discriminate R. }
  rewrite splitDomainName_show by exact O. destruct (zones_app pre (l :: n) O) as (B & ->). destruct U as (S & Ol & U'). rewrite zones_cons by exact Ol. rewrite <- app_assoc. apply loop_secure; [exact S|].
  cbn [app insecure_loop]. eapply hp_seq; [apply prove_cut; split; [exact S|split; [exact Ol|exact U']]|]. intros r ->. reflexivity.
Qed.

(** ** Answers *)
Lemma group_proper sec g r : section_ok sec -> In g (groups sec) -> In r (g_rrs g) -> proper sec r ->
  hp (fun e => e = None) (match g_sigs g with [] => do e <- checkInsecureDelegation verify keyTag toDS hashName (first_name (g_rrs g)); match e with Some e => Ret (Some e) | None => Ret (Some Bogus) end
                          | _ => validateRRset verify keyTag toDS hashName (g_rrs g) (g_sigs g) end).
Proof.
  intros SO IG RG (o & n & sig & signer & NM & IS & NS & C & NG & S & SF & LA). destruct (group_is _ g r SO IG RG) as (_ & GF). destruct (GF o NM) as (ER & GS & _). specialize (GS sig signer IS NS C).
  destruct (group_name hashName sec g r o SO IG RG NM) as [EF _]. destruct (names_canonical _ _ NM) as (_ & O & L & _). destruct (g_sigs g) as [|s0 ss] eqn:E; [destruct GS|]. rewrite <- E in *. unfold validateRRset. rewrite EF.
  apply rrset_hp; [exact O|exact L|]. exists sig. split; [exact GS|]. exists n. destruct (covers_sig _ _ _ C) as (_ & _ & ->). rewrite ER. auto.
Qed.
Lemma group_plain sec g r : section_ok sec -> In g (groups sec) -> In r (g_rrs g) -> plain sec r ->
  hp (fun e => e = Some Insecure) (match g_sigs g with [] => do e <- checkInsecureDelegation verify keyTag toDS hashName (first_name (g_rrs g)); match e with Some e => Ret (Some e) | None => Ret (Some Bogus) end
                          | _ => validateRRset verify keyTag toDS hashName (g_rrs g) (g_sigs g) end).
Proof.
  intros SO IG RG (o & l & n & NM & NS & U & SF). destruct (group_is _ g r SO IG RG) as (_ & GF). destruct (GF o NM) as (_ & _ & GS). destruct (group_name hashName sec g r o SO IG RG NM) as [_ NF].
  destruct (g_sigs g) as [|s ss]; [|destruct (GS s (or_introl eq_refl)) as (IS & NSg & signer & C); elim (NS s signer IS NSg C)].
  eapply hp_seq; [apply (insecure_hp _ o l n NF U SF)|]. intros e ->. reflexivity.
Qed.
Lemma groups_none sec gs : section_ok sec -> incl gs (groups sec) -> (forall r, In r sec -> ~ is_signature r -> proper sec r) -> hp (fun e => e = None) (validate_groups verify keyTag toDS hashName gs).
Proof.
  intros SO I P. induction gs as [|g gs IH]; [reflexivity|]. cbn [validate_groups]. assert (IG : In g (groups sec)) by (apply I; left; reflexivity). destruct (group_spec hashName sec g IG) as (_ & _ & _ & r & RG).
  destruct (group_rrset hashName sec g r SO IG RG) as (IR & NS & _). eapply hp_seq; [apply (group_proper sec g r SO IG RG (P r IR NS))|]. intros e ->. apply IH. intros x X. apply I. right. exact X.
Qed.
Lemma groups_insecure sec gs : section_ok sec -> incl gs (groups sec) -> (forall r, In r sec -> ~ is_signature r -> proper sec r \/ plain sec r) ->
  hp (fun e => e = Some Insecure \/ (e = None /\ forall g r, In g gs -> In r (g_rrs g) -> ~ plain sec r)) (validate_groups verify keyTag toDS hashName gs).
Proof.
  intros SO I P. induction gs as [|g gs IH]; [right; split; [reflexivity|intros g r []]|]. cbn [validate_groups]. assert (IG : In g (groups sec)) by (apply I; left; reflexivity). destruct (group_spec hashName sec g IG) as (_ & _ & _ & r & RG).
  destruct (group_rrset hashName sec g r SO IG RG) as (IR & NS & _). destruct (P r IR NS) as [PR|PL].
  - eapply hp_seq; [apply (group_proper sec g r SO IG RG PR)|]. intros e ->. eapply hp_conseq; [apply IH; intros x X; apply I; right; exact X|]. cbv beta. intros e [E|[E G]]; [auto|]. right. split; [exact E|].
    intros g' r' [<-|I'] R' PL'; [|apply (G g' r' I' R' PL')]. clear IH.
    (* the group has a signature *)
    destruct PR as (o & n & sig & signer & NM & IS & NSg & C & _). destruct PL' as (o' & l' & n' & NM' & NO & _). destruct (group_rrset hashName sec g r SO IG RG) as (_ & _ & n1 & N1 & RS). destruct (proj1 (RS r') R') as (_ & _ & N2 & TY).
    assert (o = n1) by (apply (names_inj _ _ _ NM N1)). assert (o' = n1) by (apply (names_inj _ _ _ NM' N2)). subst. rewrite TY in NO. apply (NO sig signer IS NSg C).
  - eapply hp_seq; [apply (group_plain sec g r SO IG RG PL)|]. intros e ->. left. reflexivity.
Qed.
Lemma signed_hp a : signed_answer verify keyTag t0 T tr secure a -> hp (fun e => e = None) (validate verify keyTag toDS hashName a).
Proof.
  intros (_ & SO & NE & P). unfold validate. destruct (m_answer a) as [|x xs] eqn:E; [contradiction|]. rewrite <- E in *. cbn [Honest_proofs.hp]. intros gs PM. apply (groups_none (m_answer a)); [exact SO| |exact P].
  intros g I. apply (Permutation_in g (Permutation_sym PM) I).
Qed.
Lemma unsigned_hp a : unsigned_answer verify keyTag hashName W t0 T tr secure a -> hp (fun e => e = Some Insecure) (validate verify keyTag toDS hashName a).
Proof.
  intros (_ & SO & P & r & IR & NS & PL). unfold validate. destruct (m_answer a) as [|x xs] eqn:E; [destruct IR|]. rewrite <- E in *. cbn [Honest_proofs.hp]. intros gs PM. eapply hp_conseq; [apply (groups_insecure (m_answer a)); [exact SO| |exact P]|].
  - intros g I. apply (Permutation_in g (Permutation_sym PM) I).
  - cbv beta. intros e [EI|[_ G]]; [exact EI|]. exfalso. assert (S : is_rrsig r = false) by (destruct (is_rrsig r) eqn:X; [apply is_rrsig_iff in X; contradiction|reflexivity]).
    destruct (group_of hashName _ r IR S) as (g & IG & RG). apply (G g r (Permutation_in g PM IG) RG PL).
Qed.

(** ** Denials *)
Definition kept (g : group) : list rr := if is_denial g then g_rrs g else [].
Lemma collect_hp o gs : name_ok o -> lname o = o -> (forall g, In g gs -> is_denial g = true -> exists sig, In sig (g_sigs g) /\ signs o (g_rrs g) sig) ->
  hp (fun rs => rs = flat_map kept gs) (collect verify keyTag toDS hashName gs (show o)).
Proof.
  intros O L. induction gs as [|g gs IH]; intros G; [reflexivity|]. cbn [collect flat_map]. assert (IH' := IH (fun g' I => G g' (or_intror I))). unfold kept at 1. pose proof (G g (or_introl eq_refl)) as GG. unfold is_denial in *. unfold TypeNSEC, TypeNSEC3. destruct ((g_type g =? 47) || (g_type g =? 50)); cbn [negb]; [|exact IH'].
  eapply hp_seq; [apply (ancestor_hp o (g_rrs g) (g_sigs g) O L (GG eq_refl))|]. intros b ->. eapply hp_seq; [exact IH'|]. intros rs ->. reflexivity.
Qed.
Lemma denial_hp a : signed_denial verify keyTag hashName t0 T tr secure a -> hp (fun e => e = None) (validate verify keyTag toDS hashName a).
Proof.
  intros (q & n & HQ & NM & _ & EA & SO & P & PR). unfold validate. rewrite EA. unfold validateDenial. destruct (m_question a) as [|q' qs]; [discriminate HQ|]. injection HQ as ->. destruct (names_canonical _ _ NM) as (En & On & Ln & _). rewrite En. cbv zeta. cbn [Honest_proofs.hp]. intros gs PM.
  eapply hp_seq; [apply (collect_hp n gs On Ln)|].
  - intros g IG D. assert (IG' : In g (groups (m_ns a))) by (apply (Permutation_in g (Permutation_sym PM) IG)). destruct (group_spec hashName _ g IG') as (_ & _ & _ & r & RG). destruct (group_rrset hashName _ g r SO IG' RG) as (IR & NS & _).
    destruct (group_is _ g r SO IG' RG) as (GT & GF). destruct (P r IR) as (o & z & sig & signer & NO & IS & NSg & C & NZ & S & SF & LA).
    { unfold denial. rewrite <- signature_is. destruct (is_rrsig r) eqn:X; [apply is_rrsig_iff in X; contradiction|]. unfold is_denial in D. rewrite GT in D. exact D. }
    destruct (GF o NO) as (ER & GS & _). exists sig. split; [apply (GS sig signer IS NSg C)|]. exists z. destruct (covers_sig _ _ _ C) as (_ & _ & ->). rewrite ER. auto.
  - intros rs ->. destruct (PR (flat_map kept gs)) as [E|E].
    + eapply Permutation_trans; [apply Permutation_flat_map, Permutation_sym, PM|]. apply groups_denial.
    + rewrite E. reflexivity.
    + rewrite E. destruct (nsecProvesDenial _ _ _ _); reflexivity.
Qed.
Lemma undenied a : Forall (fun r => denial r = false) (m_ns a) -> forall gs, Permutation (groups (m_ns a)) gs -> forall g, In g gs -> is_denial g = false.
Proof.
  intros F gs PM g IG. apply (Permutation_in g (Permutation_sym PM)) in IG. unfold groups in IG. apply in_map_iff in IG. destruct IG as (k & <- & I). apply (proj1 (in_dedup hashName _ _)) in I. apply in_map_iff in I. destruct I as (r & <- & I). apply filter_In in I. destruct I as [I X].
  rewrite Forall_forall in F. specialize (F r I). unfold denial in F. rewrite <- signature_is, X in F. exact F.
Qed.
Lemma undenied_hp a : unsigned_denial verify keyTag hashName W t0 T tr secure a -> hp (fun e => e = Some Insecure) (validate verify keyTag toDS hashName a).
Proof.
  intros (q & o & l & n & HQ & NM & _ & EA & F & U & SF). unfold validate. rewrite EA. unfold validateDenial. destruct (m_question a) as [|q' qs]; [discriminate HQ|]. injection HQ as ->. destruct (names_canonical _ _ NM) as (En & On & Ln & _). rewrite En. cbv zeta. cbn [Honest_proofs.hp]. intros gs PM.
  assert (X := undenied a F gs PM). eapply hp_seq; [apply (collect_hp o gs On Ln); intros g I D; rewrite (X g I) in D; discriminate D|]. intros rs ->.
  assert (E : flat_map kept gs = []) by (clear PM; induction gs as [|g gs IH]; [reflexivity|]; cbn; unfold kept at 1; rewrite (X g (or_introl eq_refl)); apply IH; intros g' I; apply X; right; exact I).
  rewrite E. cbn [flat_map]. rewrite nsec_nothing, nsec3_nothing. eapply hp_seq; [apply (insecure_hp _ o l n (names_self o On Ln) U SF)|]. intros e ->. reflexivity.
Qed.
End HONEST.
