(** Proofs about the validator: what its programs do whatever the resolver answers and whatever else is running. *)
From Verif Require Import Base Base_proofs Bytes Dns Name_model Name_spec Name_proofs Denial_model Denial_spec Denial_proofs Keystore_model Dnssec_model Dnssec_spec.
From Coq Require Import ZArith ZifyBool ZifyNat ZifyN.
Open Scope N_scope.

(** ** Names *)
Lemma fq_nonempty a b p : p <> EmptyString -> fq a p = fq b p.
Proof. destruct p; [congruence|reflexivity]. Qed.
Lemma fq_cut k : forall z b p c, (String.length z <= k)%nat -> fq b z = true -> cut_dot z = Some p -> p <> EmptyString -> fq c p = true.
Proof.
  induction k as [|k IH]; intros z b p c L F C NE; destruct z as [|x z]; cbn in *; try discriminate; [lia|].
  destruct (Ascii.eqb x backslash) eqn:X.
  - apply Ascii.eqb_eq in X. subst x. cbn in C. destruct z as [|y z]; [discriminate F|]. cbn in C, L. destruct (Ascii.eqb y dot).
    + injection C as <-. rewrite (fq_nonempty c false _ NE). exact F.
    + apply (IH z false p c); auto; lia.
  - destruct (Ascii.eqb x dot) eqn:D.
    + injection C as <-. rewrite (fq_nonempty c true _ NE). exact F.
    + apply (IH z false p c); auto; lia.
Qed.
Lemma cut_length z p : cut_dot z = Some p -> (String.length p < String.length z)%nat.
Proof. induction z as [|x z IH]; cbn; [discriminate|]. destruct (Ascii.eqb x dot); [intros [= <-]; lia|intros H; specialize (IH H); lia]. Qed.
Lemma cut_lower z p : lower z = z -> cut_dot z = Some p -> lower p = p.
Proof.
  induction z as [|x z IH]; [discriminate|]. rewrite lower_cons. intros H. injection H as H1 H2. cbn. destruct (Ascii.eqb x dot); [intros [= <-]; exact H2|auto].
Qed.
Lemma fq_dots k : forall s b, (String.length s <= k)%nat -> fq b (s ++ ".") = false -> fq b (s ++ "..") = true.
Proof.
  induction k as [|k IH]; intros s b L H; destruct s as [|c s]; cbn in *; try discriminate; [lia|].
  destruct (Ascii.eqb c backslash).
  - destruct s as [|d s]; [reflexivity|]. cbn in *. apply IH; [lia|exact H].
  - apply IH; [lia|exact H].
Qed.
Lemma canonical_lower s : lower (canonicalName s) = canonicalName s.
Proof. unfold canonicalName. apply lower_idem. Qed.
Definition okz (z : string) : Prop := lower z = z /\ isFqdn z = true.
Lemma okz_canonical z : okz z -> canonicalName z = z.
Proof. intros [L F]. unfold canonicalName, fqdn. rewrite F. exact L. Qed.
Lemma canonical_fix c : lower c = c -> canonicalName c = if isFqdn c then c else (c ++ ".")%string.
Proof. intros L. unfold canonicalName, fqdn. destruct (isFqdn c); [exact L|]. rewrite lower_app, L. reflexivity. Qed.
(** CanonicalName twice: the name with an unescaped dot at the end *)
Definition dbl (z : string) : string := canonicalName (canonicalName z).
Lemma dbl_ok z : okz (dbl z).
Proof.
  split; [apply canonical_lower|]. unfold dbl. rewrite (canonical_fix _ (canonical_lower z)). destruct (isFqdn (canonicalName z)) eqn:F; [exact F|].
  unfold canonicalName, fqdn in F |- *. destruct (isFqdn z) eqn:G; unfold isFqdn in *; rewrite fq_lower in F; [congruence|].
  rewrite lower_app. cbn. rewrite string_app_assoc. cbn [append].
  change (String "."%char (String "."%char EmptyString)) with ".."%string. apply (fq_dots _ _ _ (Nat.le_refl _)).
  change "."%string with (lower "."%string). rewrite <- lower_app, fq_lower. exact F.
Qed.
Lemma canonical_dbl z : canonicalName (dbl z) = dbl z.
Proof. apply okz_canonical, dbl_ok. Qed.
Lemma dbl_ok_id z : okz z -> dbl z = z.
Proof. intros K. unfold dbl. rewrite !(okz_canonical z K). reflexivity. Qed.
Lemma dbl_canonical z : dbl (canonicalName z) = dbl z.
Proof. apply canonical_dbl. Qed.
Lemma dbl_root z : dbl z = "."%string -> canonicalName z = "."%string.
Proof.
  unfold dbl. rewrite (canonical_fix _ (canonical_lower z)). destruct (isFqdn (canonicalName z)) eqn:F; [auto|].
  intros H. exfalso. assert (E : canonicalName z = EmptyString). { destruct (canonicalName z) as [|c s]; [reflexivity|]. cbn in H. injection H as -> H. destruct s; discriminate H. }
  unfold canonicalName, fqdn in E. destruct (isFqdn z) eqn:G; destruct z; cbn in *; try discriminate.
Qed.
Lemma parent_dbl z : parentZone (canonicalName z) = parentZone (dbl z).
Proof. unfold parentZone. rewrite canonical_dbl. reflexivity. Qed.
Lemma okz_root : okz ".". Proof. split; reflexivity. Qed.
Lemma parent_ok z : okz z -> okz (parentZone z).
Proof.
  intros K. unfold parentZone. rewrite (okz_canonical z K). destruct (z =? ".")%string; [exact okz_root|]. destruct (cut_dot z) as [p|] eqn:C; [|exact okz_root].
  destruct (p =? "")%string eqn:E; [exact okz_root|]. apply String.eqb_neq in E. destruct K as [L F]. split; [exact (cut_lower z p L C)|exact (fq_cut _ z false p false (Nat.le_refl _) F C E)].
Qed.
Lemma parent_length z : okz z -> z <> "."%string -> (String.length (parentZone z) < String.length z)%nat.
Proof.
  intros K NR. assert (R : (String.length "." < String.length z)%nat).
  { destruct K as [_ F]. destruct z as [|a [|b z]]; [discriminate F| |cbn; lia]. exfalso. apply NR. unfold isFqdn in F. cbn in F. destruct (Ascii.eqb a backslash); [discriminate F|]. destruct (Ascii.eqb a dot) eqn:D; [|discriminate F].
    apply Ascii.eqb_eq in D. subst a. reflexivity. }
  unfold parentZone. rewrite (okz_canonical z K). destruct (z =? ".")%string eqn:E; [exact R|]. destruct (cut_dot z) as [p|] eqn:C; [|exact R].
  destruct (p =? "")%string; [exact R|apply cut_length, C].
Qed.
Lemma dbl_length z : (String.length (dbl z) <= 2 + String.length z)%nat.
Proof.
  assert (L : forall s, String.length (lower s) = String.length s) by (induction s as [|c s IH]; [reflexivity|rewrite lower_cons; cbn; rewrite IH; reflexivity]).
  assert (A : forall s t, String.length (s ++ t) = (String.length s + String.length t)%nat) by (induction s as [|c s IH]; intros t; cbn; [reflexivity|rewrite IH; reflexivity]).
  assert (C : forall s, (String.length (canonicalName s) <= 1 + String.length s)%nat) by (intros s; unfold canonicalName, fqdn; rewrite L; destruct (isFqdn s); [lia|rewrite A; cbn; lia]).
  unfold dbl. pose proof (C z). pose proof (C (canonicalName z)). lia.
Qed.

(** ** Signatures *)
Lemma validity_spec i e t : validityPeriod i e t = true <-> i <= t /\ t <= e.
Proof.
  unfold validityPeriod, year68. rewrite andb_true_iff, !Z.leb_le.
  assert (P : (0 < 2 ^ 31)%Z) by reflexivity.
  split.
  - intros [H1 H2]. split.
    + destruct (N.le_gt_cases i t) as [L|L]; [exact L|]. exfalso.
      assert (0 <= Z.quot (Z.of_N i - Z.of_N t) (2 ^ 31))%Z by (apply Z.quot_pos; [lia|exact P]). nia.
    + destruct (N.le_gt_cases t e) as [L|L]; [exact L|]. exfalso.
      assert (Z.quot (Z.of_N e - Z.of_N t) (2 ^ 31) <= 0)%Z.
      { replace (Z.of_N e - Z.of_N t)%Z with (- (Z.of_N t - Z.of_N e))%Z by lia. rewrite Z.quot_opp_l by lia. assert (0 <= Z.quot (Z.of_N t - Z.of_N e) (2 ^ 31))%Z by (apply Z.quot_pos; [lia|exact P]). lia. }
      nia.
  - intros [H1 H2]. split.
    + assert (Z.quot (Z.of_N i - Z.of_N t) (2 ^ 31) <= 0)%Z.
      { replace (Z.of_N i - Z.of_N t)%Z with (- (Z.of_N t - Z.of_N i))%Z by lia. rewrite Z.quot_opp_l by lia. assert (0 <= Z.quot (Z.of_N t - Z.of_N i) (2 ^ 31))%Z by (apply Z.quot_pos; [lia|exact P]). lia. }
      nia.
    + assert (0 <= Z.quot (Z.of_N e - Z.of_N t) (2 ^ 31))%Z by (apply Z.quot_pos; [lia|exact P]). nia.
Qed.

Section PROOFS.
Variable verify : rr -> rr -> list rr -> bool.
Variable keyTag : rr -> N.
Variable toDS : rr -> N -> option string.
Variable hashName : string -> N -> N -> string -> string.
Variable anchors : list anchor.
Notation good_sig := (good_sig verify keyTag).
Notation signed := (signed verify keyTag).
Notation verifyRRSIG := (verifyRRSIG verify keyTag).
Notation trusted := (trusted verify keyTag toDS anchors).

Definition is_key (r : rr) : Prop := exists f p a d, rr_data r = DDNSKEY f p a d.
Lemma verify_good sig keys rrset t : Forall is_key keys -> verifyRRSIG sig keys rrset t = true -> good_sig keys rrset sig t.
Proof. clear toDS hashName anchors.
  intros K H. unfold Dnssec_model.verifyRRSIG in H. destruct (rr_data sig) as [] eqn:E; try discriminate H.
  match type of H with (if ?b then _ else _) = true => destruct b eqn:V; [|discriminate H] end. apply validity_spec in V.
  apply existsb_exists in H. destruct H as (k & I & VK). unfold findKeysByTag in I. apply filter_In in I. destruct I as [I M]. apply andb_prop in M. destruct M as [M1 M2]. apply N.eqb_eq in M1, M2.
  pose proof (proj1 (Forall_forall _ _) K k I) as (f & p & a & d & KD). unfold key_alg in M2. rewrite KD in M2. subst a.
  unfold Dnssec_spec.good_sig. do 13 eexists. split; [exact E|]. split; [exact I|]. split; [exact KD|]. split; [exact M1|]. split; [exact VK|exact V].
Qed.
Lemma good_mono keys keys' rrset sig t : incl keys keys' -> good_sig keys rrset sig t -> good_sig keys' rrset sig t.
Proof. clear toDS hashName anchors. intros I (c & al & la & ot & e & i & tg & sn & da & k & kf & kp & kd & H & K & R). exists c, al, la, ot, e, i, tg, sn, da, k, kf, kp, kd. split; [exact H|]. split; [apply I, K|exact R]. Qed.
Lemma good_one keys rrset sig t : good_sig keys rrset sig t -> exists k, In k keys /\ good_sig [k] rrset sig t.
Proof. clear toDS hashName anchors. intros (c & al & la & ot & e & i & tg & sn & da & k & kf & kp & kd & H & K & R). exists k. split; [exact K|]. exists c, al, la, ot, e, i, tg, sn, da, k, kf, kp, kd. split; [exact H|]. split; [left; reflexivity|exact R]. Qed.
Lemma signed_mono keys rrset T T' : T <= T' -> signed keys rrset T -> signed keys rrset T'.
Proof. clear toDS hashName anchors. intros L (s & t & H & G). exists s, t. split; [lia|exact G]. Qed.

(** ** Trust, by the strings that the code uses *)
Definition self_signed_s (zone : string) (k : rr) (zsk ksk : list rr) (T : N) : Prop :=
  In k ksk /\ exists sig t, t <= T /\ good_sig [k] (zsk ++ ksk) sig t /\ is_rrsig sig = true /\ sig_covered sig = 48 /\ dbl (sig_signer sig) = zone.
Inductive trusted_s : string -> list rr -> list rr -> N -> Prop :=
| ts_root zsk ksk T k a :
    In a anchors -> canonicalName (a_owner a) = "."%string -> digest_of toDS k (a_digesttype a) (a_digest a) ->
    self_signed_s "." k zsk ksk T -> key_set zsk ksk -> trusted_s "." zsk ksk T
| ts_child z pzsk pksk zsk ksk T k ds d tag alg dt digest :
    z <> "."%string -> okz z -> trusted_s (parentZone z) pzsk pksk T ->
    signed pzsk ds T -> Forall (fun r => exists a b c e, rr_data r = DDS a b c e) ds ->
    In d ds -> rr_data d = DDS tag alg dt digest -> digest_of toDS k dt digest ->
    self_signed_s z k zsk ksk T -> key_set zsk ksk -> trusted_s z zsk ksk T.
Definition denies (zsk : list rr) (z : string) (T : N) : Prop := exists rrset r, signed zsk rrset T /\ In r rrset /\ denies_ds hashName r z = true.
Inductive insec_s : string -> N -> Prop :=
| is_here z zsk ksk T : z <> "."%string -> okz z -> trusted_s (parentZone z) zsk ksk T -> denies zsk z T -> insec_s z T
| is_up z T : z <> "."%string -> okz z -> insec_s (parentZone z) T -> insec_s z T.

Lemma self_mono z k zsk ksk T T' : T <= T' -> self_signed_s z k zsk ksk T -> self_signed_s z k zsk ksk T'.
Proof. clear toDS hashName anchors. intros L (I & s & t & H & R). split; [exact I|]. exists s, t. split; [lia|exact R]. Qed.
Lemma trusted_mono z zsk ksk T T' : T <= T' -> trusted_s z zsk ksk T -> trusted_s z zsk ksk T'.
Proof. clear hashName.
  intros L H. induction H as [zsk ksk T k a I O D SS K|z pz pk zsk ksk T k ds d tag alg dt dg NR OZ TP IH SD FD ID ED DG SS K].
  - eapply ts_root; eauto using self_mono.
  - eapply ts_child; eauto using self_mono, signed_mono.
Qed.
Lemma denies_mono zsk z T T' : T <= T' -> denies zsk z T -> denies zsk z T'.
Proof. clear toDS anchors. intros L (rs & r & S & R). exists rs, r. split; [exact (signed_mono _ _ _ _ L S)|exact R]. Qed.
Lemma insec_mono z T T' : T <= T' -> insec_s z T -> insec_s z T'.
Proof. intros L H. induction H as [z zsk ksk T NR OZ TP D|z T NR OZ H IH]; [eapply is_here; eauto using trusted_mono, denies_mono|apply is_up; auto]. Qed.
Lemma trusted_keys z zsk ksk T : trusted_s z zsk ksk T -> key_set zsk ksk.
Proof. clear hashName. intros H. destruct H; assumption. Qed.
Lemma key_set_zsk zsk ksk : key_set zsk ksk -> Forall is_key zsk.
Proof. clear hashName. intros [H _]. eapply Forall_impl; [|exact H]. intros r (p & a & d & E). exists 256, p, a, d. exact E. Qed.

(** ** Programs *)
Definition root_ds : list rr := map anchor_ds (filter (fun a => String.eqb (canonicalName (a_owner a)) ".") anchors).
Fixpoint wp {R} (Q : N -> R -> Prop) (T : N) (p : prog R) : Prop :=
  match p with
  | Ret r => Q T r
  | Panic => True
  | Fuel => False
  | Ask q k => forall a T', T <= T' -> wp Q T' (k a)
  | Now k => forall t, T <= t -> wp Q t (k t)
  | GetKeys z k => forall T' zsk ksk, T <= T' -> (zsk = [] /\ ksk = []) \/ trusted_s (canonicalName z) zsk ksk T' -> wp Q T' (k (zsk, ksk))
  | PutKeys z ks t k => trusted_s (canonicalName z) (filter (has_flags 256) ks) (filter (has_flags 257) ks) T /\ forall T', T <= T' -> wp Q T' k
  | GetDS z k => forall T' ds, T <= T' -> (canonicalName z = "."%string -> incl ds root_ds) -> wp Q T' (k ds)
  | Shuffle l k => forall T' l', T <= T' -> Permutation l l' -> wp Q T' (k l')
  end.
Lemma wp_conseq {R} (Q Q' : N -> R -> Prop) (p : prog R) : forall T, wp Q T p -> (forall T' r, T <= T' -> Q T' r -> Q' T' r) -> wp Q' T p.
Proof. clear hashName.
  induction p as [r| | |q k IH|k IH|z k IH|z ks t k IH|z k IH|l k IH]; cbn; intros T H I; auto.
  - apply I; [lia|exact H].
  - intros a T' L. apply (IH a T' (H a T' L)). intros T'' r L'. apply I. lia.
  - intros t L. apply (IH t t (H t L)). intros T'' r L'. apply I. lia.
  - intros T' zsk ksk L G. apply (IH (zsk, ksk) T' (H T' zsk ksk L G)). intros T'' r L'. apply I. lia.
  - destruct H as [H1 H2]. split; [exact H1|]. intros T' L. apply (IH T' (H2 T' L)). intros T'' r L'. apply I. lia.
  - intros T' ds L G. apply (IH ds T' (H T' ds L G)). intros T'' r L'. apply I. lia.
  - intros T' l' L G. apply (IH l' T' (H T' l' L G)). intros T'' r L'. apply I. lia.
Qed.
Lemma wp_bind {A B} (Q : N -> B -> Prop) (f : A -> prog B) (p : prog A) : forall T, wp (fun T' r => wp Q T' (f r)) T p -> wp Q T (bind p f).
Proof. clear hashName.
  induction p as [r| | |q k IH|k IH|z k IH|z ks t k IH|z k IH|l k IH]; cbn; intros T H; auto.
  destruct H as [H1 H2]. split; [exact H1|]. intros T' L. apply IH, H2, L.
Qed.
(** The usual way to use the two *)
Lemma wp_seq {A B} (P : N -> A -> Prop) (Q : N -> B -> Prop) (f : A -> prog B) (p : prog A) T :
  wp P T p -> (forall T' r, T <= T' -> P T' r -> wp Q T' (f r)) -> wp Q T (bind p f).
Proof. clear hashName. intros H I. apply wp_bind. exact (wp_conseq _ _ p T H I). Qed.

Lemma anySig_ok sigs keys rrset : Forall is_key keys -> forall T,
  wp (fun T' (b : bool) => b = true -> exists s t, In s sigs /\ t <= T' /\ good_sig keys rrset s t) T (anySig verify keyTag sigs keys rrset).
Proof. clear hashName.
  intros K. induction sigs as [|s sigs IH]; intros T; cbn; [discriminate|]. intros t L. destruct (verifyRRSIG s keys rrset t) eqn:V.
  - cbn. intros _. exists s, t. split; [left; reflexivity|]. split; [lia|apply verify_good; assumption].
  - apply (wp_conseq _ _ _ _ (IH t)). intros T' b L' H E. destruct (H E) as (s' & t' & I & R). exists s', t'. split; [right; exact I|exact R].
Qed.
Lemma flags_key f r : has_flags f r = true -> exists p a d, rr_data r = DDNSKEY f p a d.
Proof. unfold has_flags, key_flags. destruct (rr_data r) eqn:E; try discriminate. intros H. apply N.eqb_eq in H. subst. eauto. Qed.
Lemma lookupDNSKEY_ok zone T :
  wp (fun T' r => match r with Some (zsk, ksk, sigs) => key_set zsk ksk /\ Forall (fun s => is_rrsig s = true) sigs | None => True end) T (lookupDNSKEY zone).
Proof.
  cbn. intros a T' _. destruct a as [m| |e]; cbn; auto. destruct (negb (m_rcode m =? RcodeSuccess)); cbn; auto. split; [split|].
  - apply Forall_forall. intros k I. apply filter_In in I. apply flags_key, I.
  - apply Forall_forall. intros k I. apply filter_In in I. apply flags_key, I.
  - apply Forall_forall. intros k I. apply filter_In in I. apply I.
Qed.
Lemma is_ds_data r : is_ds r = true -> exists a b c e, rr_data r = DDS a b c e.
Proof. unfold is_ds. destruct (rr_data r); try discriminate. eauto. Qed.
Lemma lookupDS_ok zone T :
  wp (fun T' r => match r with Some (ds, sigs, resp) => Forall (fun r => exists a b c e, rr_data r = DDS a b c e) ds | None => True end) T (lookupDS zone).
Proof.
  cbn. intros a T' _. destruct a as [m| |e]; cbn; auto. destruct (m_rcode m =? RcodeSuccess); cbn; [|constructor].
  apply Forall_forall. intros k I. apply filter_In in I. apply is_ds_data, I.
Qed.
Lemma filter_all {A} (f : A -> bool) l : Forall (fun x => f x = true) l -> filter f l = l.
Proof. induction 1 as [|x l H _ IH]; [reflexivity|]. cbn. rewrite H, IH. reflexivity. Qed.
Lemma filter_none {A} (f : A -> bool) l : Forall (fun x => f x = false) l -> filter f l = [].
Proof. induction 1 as [|x l H _ IH]; [reflexivity|]. cbn. rewrite H, IH. reflexivity. Qed.
Lemma key_set_split zsk ksk : key_set zsk ksk -> filter (has_flags 256) (zsk ++ ksk) = zsk /\ filter (has_flags 257) (zsk ++ ksk) = ksk.
Proof.
  intros [Z K]. rewrite !filter_app. split.
  - rewrite (filter_all _ zsk), (filter_none _ ksk), app_nil_r; [reflexivity| |].
    + eapply Forall_impl; [|exact K]. intros r (p & a & d & E). unfold has_flags, key_flags. rewrite E. reflexivity.
    + eapply Forall_impl; [|exact Z]. intros r (p & a & d & E). unfold has_flags, key_flags. rewrite E. reflexivity.
  - rewrite (filter_none _ zsk), (filter_all _ ksk); [reflexivity| |].
    + eapply Forall_impl; [|exact K]. intros r (p & a & d & E). unfold has_flags, key_flags. rewrite E. reflexivity.
    + eapply Forall_impl; [|exact Z]. intros r (p & a & d & E). unfold has_flags, key_flags. rewrite E. reflexivity.
Qed.
Lemma denial_ok resp zone keys t : Forall is_key keys -> verifyDSDenial verify keyTag hashName resp zone keys t = true -> denies keys (canonicalName zone) t.
Proof.
  intros K H. unfold verifyDSDenial in H. apply existsb_exists in H. destruct H as (g & _ & H). apply andb_prop in H. destruct H as [H D]. apply andb_prop in H. destruct H as [_ V].
  apply existsb_exists in D. destruct D as (r & I & D). apply existsb_exists in V. destruct V as (s & _ & V). exists (g_rrs g), r.
  split; [|split; assumption]. exists s, t. split; [lia|apply verify_good; assumption].
Qed.

(** Trust follows once the DS records are known to match. *)
Definition chain_post (z : string) (T : N) (r : chain_result) : Prop :=
  match r with inr (zsk, ksk) => trusted_s (dbl z) zsk ksk T | inl Insecure => insec_s (dbl z) T | inl Bogus => True end.
Lemma finish_ok zone zsk ksk sigs ds T : lower zone = zone -> key_set zsk ksk -> Forall (fun s => is_rrsig s = true) sigs ->
  (forall k T', T <= T' -> (exists d, In d ds /\ ds_matches toDS k d = true) -> self_signed_s (canonicalName zone) k zsk ksk T' -> trusted_s (canonicalName zone) zsk ksk T') ->
  wp (fun T' r => match r with inr (z, k) => trusted_s (canonicalName zone) z k T' | inl Insecure => False | inl Bogus => True end) T (finish verify keyTag toDS zone zsk ksk sigs ds).
Proof.
  intros LZ K S H. unfold finish. destruct (filterKeysByDS toDS ksk ds) as [|k0 ks] eqn:F; [exact I|]. rewrite <- F. clear k0 ks F.
  assert (KK : Forall is_key (filterKeysByDS toDS ksk ds)).
  { apply Forall_forall. intros k IK. apply filter_In in IK. destruct IK as [IK _]. destruct K as [_ K]. destruct (proj1 (Forall_forall _ _) K k IK) as (p & a & d & E). exists 257, p, a, d. exact E. }
  eapply wp_seq; [apply anySig_ok; exact KK|]. intros T1 ok L1 P. cbv beta in P. destruct ok; [|exact I]. cbn. intros t L2. destruct (P eq_refl) as (s & u & IS & LU & G).
  apply filter_In in IS. destruct IS as [IS M]. apply andb_prop in M. destruct M as [M1 M2]. apply String.eqb_eq in M1. apply N.eqb_eq in M2.
  destruct (good_one _ _ _ _ G) as (k & IK & G1). apply filter_In in IK. destruct IK as [IK MD]. apply existsb_exists in MD.
  assert (TR : forall T', T1 <= T' -> trusted_s (canonicalName zone) zsk ksk T').
  { intros T' L'. apply (H k T'); [lia|exact MD|]. split; [exact IK|]. exists s, u. split; [lia|]. split; [exact G1|]. split; [exact (proj1 (Forall_forall _ _) S s IS)|]. split; [exact M2|]. unfold dbl. rewrite M1. reflexivity. }
  destruct (key_set_split zsk ksk K) as [-> ->]. split; [apply TR; lia|]. intros T' L'. apply TR. lia.
Qed.

Lemma lower_upper s : lower (upper s) = lower s.
Proof.
  induction s as [|c s IH]; [reflexivity|]. cbn [upper]. rewrite !lower_cons, IH. f_equal. destruct c as [[] [] [] [] [] [] [] []]; reflexivity.
Qed.
Lemma ds_matches_digest k d : ds_matches toDS k d = true -> exists tag alg dt dg, rr_data d = DDS tag alg dt dg /\ digest_of toDS k dt dg.
Proof.
  unfold ds_matches. destruct (rr_data d) as [] eqn:E; try discriminate. match goal with |- context [toDS k ?x] => destruct (toDS k x) as [c|] eqn:D end; [|discriminate]. intros H.
  do 4 eexists. split; [reflexivity|]. exists c. split; [exact D|]. unfold equal_fold in H. apply String.eqb_eq, H.
Qed.
Lemma chain_ok fuel : forall zone T, (String.length (dbl zone) < fuel)%nat -> wp (chain_post zone) T (chain verify keyTag toDS hashName fuel zone).
Proof.
  induction fuel as [|fuel IH]; intros zone T LF; [lia|]. cbn [chain]. cbn [wp]. intros T1 zsk0 ksk0 L1 G.
  destruct zsk0 as [|z0 zsk0]; [destruct ksk0 as [|k0 ksk0]|].
  2: { cbn. destruct G as [[_ G]|G]; [discriminate G|exact G]. }
  2: { cbn. destruct G as [[G _]|G]; [discriminate G|exact G]. }
  clear G. eapply wp_seq; [apply lookupDNSKEY_ok|]. intros T2 keys L2 PK. destruct keys as [[[zsk ksk] sigs]|]; [|exact I]. destruct PK as [KS SG].
  destruct ksk as [|k0 ks0] eqn:EK; [exact I|]. rewrite <- EK in *. clear k0 ks0 EK.
  destruct (String.eqb (canonicalName zone) ".") eqn:R.
  - apply String.eqb_eq in R. cbn [wp]. intros T3 ds L3 G. destruct ds as [|d0 ds0] eqn:ED; [exact I|]. rewrite <- ED in *. clear d0 ds0 ED.
    eapply wp_conseq; [apply (finish_ok (canonicalName zone) zsk ksk sigs ds T3)|].
    + apply canonical_lower.
    + exact KS.
    + exact SG.
    + intros k T' _ (d & ID & MD) SS. rewrite R in *. change (canonicalName ".") with "."%string in *. specialize (G eq_refl d ID). unfold root_ds in G. apply in_map_iff in G. destruct G as (a & E & IA). apply filter_In in IA. destruct IA as [IA OA]. apply String.eqb_eq in OA.
      destruct (ds_matches_digest k d MD) as (tag & alg & dt & dg & DD & DG). subst d. unfold anchor_ds in DD. cbn in DD. injection DD as <- <- <- <-.
      apply (ts_root zsk ksk T' k a); auto. destruct DG as (c & TD & LD). exists c. split; [exact TD|]. rewrite LD. apply lower_upper.
    + intros T' [[]|[z k]] _ P; cbn in *; auto; contradiction.
  - apply String.eqb_neq in R. assert (NR : dbl zone <> "."%string) by (intros E; apply R, dbl_root, E).
    eapply wp_seq; [apply lookupDS_ok|]. intros T3 dsr L3 PD. destruct dsr as [[[ds dsSigs] resp]|]; [|exact I].
    pose proof (parent_ok _ (dbl_ok zone)) as PO. pose proof (parent_length _ (dbl_ok zone) NR) as PL.
    eapply wp_seq; [apply (IH (parentZone (canonicalName zone)) T3)|].
    { rewrite parent_dbl, (dbl_ok_id _ PO). lia. }
    intros T4 pr L4 PP. unfold chain_post in PP. rewrite parent_dbl, (dbl_ok_id _ PO) in PP.
    destruct pr as [[]|[pz pk]]; [| |].
    + cbn. apply is_up; auto using dbl_ok.
    + exact I.
    + pose proof (key_set_zsk _ _ (trusted_keys _ _ _ _ PP)) as ZK. destruct ds as [|d0 ds0] eqn:ED.
      * cbn. intros t Lt. destruct (verifyDSDenial verify keyTag hashName resp (canonicalName zone) pz t) eqn:V; [|exact I]. cbn.
        apply (is_here (dbl zone) pz pk t); auto using dbl_ok; [exact (trusted_mono _ _ _ _ _ Lt PP)|]. apply (denial_ok _ _ _ _ ZK V).
      * rewrite <- ED in *. clear d0 ds0 ED. destruct dsSigs as [|s0 ss0] eqn:ES; [exact I|]. rewrite <- ES. clear s0 ss0 ES.
        eapply wp_seq; [apply (anySig_ok dsSigs pz ds ZK)|]. intros T5 ok L5 PS. cbv beta in PS. destruct ok; [|exact I]. destruct (PS eq_refl) as (s & u & IS & LU & G).
        eapply wp_conseq; [apply (finish_ok (canonicalName zone) zsk ksk sigs ds T5)|].
        -- apply canonical_lower.
        -- exact KS.
        -- exact SG.
        -- intros k T' L' (d & ID & MD) SS. destruct (ds_matches_digest k d MD) as (tag & alg & dt & dg & DD & DG).
           apply (ts_child (dbl zone) pz pk zsk ksk T' k ds d tag alg dt dg); auto using dbl_ok.
           ++ apply (trusted_mono _ _ _ T4); [lia|exact PP].
           ++ exists s, u. split; [lia|exact G].
        -- intros T' [[]|[z k]] _ P; cbn in *; auto; contradiction.
Qed.
Lemma build_ok zone T : wp (chain_post zone) T (buildChainOfTrust verify keyTag toDS hashName zone).
Proof. apply chain_ok. pose proof (dbl_length zone). lia. Qed.

(** ** The walk over the delegations *)
Definition nods (zone : string) (T : N) : Prop :=
  (exists zsk ksk, trusted_s (dbl (parentZone zone)) zsk ksk T /\ denies zsk (canonicalName zone) T) \/ insec_s (dbl (parentZone zone)) T.
Lemma proveNoDS_ok zone T : wp (fun T' r => match r with inr true => nods zone T' | inl Insecure => False | _ => True end) T (proveNoDS verify keyTag toDS hashName zone).
Proof.
  unfold proveNoDS. eapply wp_seq; [apply lookupDS_ok|]. intros T1 dsr L1 _. destruct dsr as [[[ds sg] resp]|]; [|exact I]. destruct ds as [|d ds]; [|exact I].
  eapply wp_seq; [apply build_ok|]. intros T2 pr L2 PP. unfold chain_post in PP. destruct pr as [[]|[pz pk]]; cbn.
  - right. exact PP.
  - exact I.
  - intros t Lt. destruct (verifyDSDenial verify keyTag hashName resp zone pz t) eqn:V; [|exact I]. left. exists pz, pk. split; [exact (trusted_mono _ _ _ _ _ Lt PP)|].
    apply (denial_ok _ _ _ _ (key_set_zsk _ _ (trusted_keys _ _ _ _ PP)) V).
Qed.
Definition cut_above (name : string) (T : N) : Prop := exists zone, In zone (suffix_zones (splitDomainName (canonicalName name))) /\ nods zone T.
Lemma insecure_loop_ok zones : forall T, wp (fun T' r => r = Some Insecure -> exists zone, In zone zones /\ nods zone T') T (insecure_loop verify keyTag toDS hashName zones).
Proof.
  induction zones as [|z zones IH]; intros T; cbn [insecure_loop]; [cbn; discriminate|].
  eapply wp_seq; [apply proveNoDS_ok|]. intros T1 r L1 P. cbv beta in P. destruct r as [[]|[]]; cbn.
  - contradiction.
  - discriminate.
  - intros _. exists z. split; [left; reflexivity|exact P].
  - eapply wp_conseq; [apply IH|]. intros T' r _ H E. destruct (H E) as (zo & I & N). exists zo. split; [right; exact I|exact N].
Qed.
Lemma checkInsecure_ok name T : wp (fun T' r => r = Some Insecure -> cut_above name T') T (checkInsecureDelegation verify keyTag toDS hashName name).
Proof.
  unfold checkInsecureDelegation. destruct (canonicalName name =? ".")%string; [cbn; discriminate|]. apply insecure_loop_ok.
Qed.

(** ** Sets of records *)
Definition auth_s (owner : string) (rrset : list rr) (T : N) : Prop := exists signer zsk ksk,
  isSubDomain (canonicalName signer) owner = true /\ trusted_s (dbl signer) zsk ksk T /\ signed zsk rrset T.
Lemma auth_mono o rs T T' : T <= T' -> auth_s o rs T -> auth_s o rs T'.
Proof. intros L (s & z & k & A & B & C). exists s, z, k. split; [exact A|]. split; [exact (trusted_mono _ _ _ _ _ L B)|exact (signed_mono _ _ _ _ L C)]. Qed.
(** by one of the given signatures *)
Definition auth_sigs (sigs : list rr) (owner : string) (rrset : list rr) (T : N) : Prop := exists sig zsk ksk,
  In sig sigs /\ isSubDomain (canonicalName (sig_signer sig)) owner = true /\ trusted_s (dbl (sig_signer sig)) zsk ksk T /\ signed zsk rrset T.
Lemma rrset_loop_ok owner rrset sigs : forall last T,
  wp (fun T' r => match r with
                  | None => (sigs = [] /\ last = None) \/ auth_sigs sigs owner rrset T'
                  | Some Insecure => last = Some Insecure \/ exists sig, In sig sigs /\ isSubDomain (canonicalName (sig_signer sig)) owner = true /\ insec_s (dbl (sig_signer sig)) T'
                  | Some Bogus => True end) T (rrset_loop verify keyTag toDS hashName owner rrset sigs last).
Proof.
  induction sigs as [|sig sigs IH]; intros last T; cbn [rrset_loop]; [cbn; destruct last as [[]|]; auto|].
  assert (W : forall last' T', (last' = Some Bogus \/ (last' = Some Insecure /\ forall T'', T' <= T'' -> insec_s (dbl (sig_signer sig)) T'' /\ isSubDomain (canonicalName (sig_signer sig)) owner = true)) ->
    wp (fun T' r => match r with
                  | None => (sig :: sigs = [] /\ last = None) \/ auth_sigs (sig :: sigs) owner rrset T'
                  | Some Insecure => last = Some Insecure \/ exists sig', In sig' (sig :: sigs) /\ isSubDomain (canonicalName (sig_signer sig')) owner = true /\ insec_s (dbl (sig_signer sig')) T'
                  | Some Bogus => True end) T' (rrset_loop verify keyTag toDS hashName owner rrset sigs last')).
  { intros last' T' HL. eapply wp_conseq; [apply IH|]. intros T2 r L2 P. cbv beta in P |- *. destruct r as [[]|].
    - right. destruct P as [->|(s & I & R)]; [|exists s; split; [right; exact I|exact R]]. destruct HL as [HL|[_ HL]]; [discriminate HL|]. destruct (HL T2 L2) as [A B]. exists sig. split; [left; reflexivity|]. auto.
    - exact I.
    - right. destruct P as [[_ ->]|(s & z & k & I & R)]; [destruct HL as [HL|[HL _]]; discriminate HL|]. exists s, z, k. split; [right; exact I|exact R]. }
  destruct (isSubDomain (canonicalName (sig_signer sig)) owner) eqn:SUB; cbn [negb]; [|apply W; left; reflexivity].
  eapply wp_seq; [apply build_ok|]. intros T1 c L1 P. unfold chain_post in P. rewrite dbl_canonical in P. destruct c as [[]|[zsk ksk]].
  - apply W. right. split; [reflexivity|]. intros T2 L2. split; [exact (insec_mono _ _ _ L2 P)|reflexivity].
  - apply W. left. reflexivity.
  - cbn [wp]. intros t Lt. destruct (verifyRRSIG sig zsk rrset t) eqn:V; [|apply W; left; reflexivity]. cbn. right. exists sig, zsk, ksk. split; [left; reflexivity|]. split; [exact SUB|].
    split; [exact (trusted_mono _ _ _ _ _ Lt P)|]. exists sig, t. split; [lia|]. apply verify_good; [|exact V]. exact (key_set_zsk _ _ (trusted_keys _ _ _ _ P)).
Qed.
Lemma signedFromAncestor_ok rrset qname sigs : forall T,
  wp (fun T' (b : bool) => b = true -> auth_sigs sigs qname rrset T') T (signedFromAncestor verify keyTag toDS hashName rrset sigs qname).
Proof.
  induction sigs as [|sig sigs IH]; intros T; cbn [signedFromAncestor]; [cbn; discriminate|].
  assert (W : forall T', wp (fun T' (b : bool) => b = true -> auth_sigs (sig :: sigs) qname rrset T') T' (signedFromAncestor verify keyTag toDS hashName rrset sigs qname)).
  { intros T'. eapply wp_conseq; [apply IH|]. intros T2 b _ P E. destruct (P E) as (s & z & k & I & R). exists s, z, k. split; [right; exact I|exact R]. }
  destruct (isSubDomain (canonicalName (sig_signer sig)) qname) eqn:SUB; cbn [negb]; [|apply W].
  eapply wp_seq; [apply build_ok|]. intros T1 c L1 P. unfold chain_post in P. rewrite dbl_canonical in P. destruct c as [e|[zsk ksk]]; [apply W|].
  cbn [wp]. intros t Lt. destruct (verifyRRSIG sig zsk rrset t) eqn:V; [|apply W]. cbn. intros _. exists sig, zsk, ksk. split; [left; reflexivity|]. split; [exact SUB|].
  split; [exact (trusted_mono _ _ _ _ _ Lt P)|]. exists sig, t. split; [lia|]. apply verify_good; [|exact V]. exact (key_set_zsk _ _ (trusted_keys _ _ _ _ P)).
Qed.
Lemma auth_sigs_mono sg o rs T T' : T <= T' -> auth_sigs sg o rs T -> auth_sigs sg o rs T'.
Proof. intros L (s & z & k & I & A & B & C). exists s, z, k. split; [exact I|]. split; [exact A|]. split; [exact (trusted_mono _ _ _ _ _ L B)|exact (signed_mono _ _ _ _ L C)]. Qed.
Lemma collect_ok qname gs : forall T,
  wp (fun T' rs => forall r, In r rs -> exists g, In g gs /\ In r (g_rrs g) /\ auth_sigs (g_sigs g) qname (g_rrs g) T') T (collect verify keyTag toDS hashName gs qname).
Proof.
  induction gs as [|g gs IH]; intros T; cbn [collect]; [cbn; contradiction|].
  assert (W : forall T', wp (fun T' rs => forall r, In r rs -> exists g', In g' (g :: gs) /\ In r (g_rrs g') /\ auth_sigs (g_sigs g') qname (g_rrs g') T') T' (collect verify keyTag toDS hashName gs qname)).
  { intros T'. eapply wp_conseq; [apply IH|]. intros T2 rs _ P r I. destruct (P r I) as (g' & IG & R). exists g'. split; [right; exact IG|exact R]. }
  destruct (negb ((g_type g =? TypeNSEC) || (g_type g =? TypeNSEC3))); [apply W|].
  eapply wp_seq; [apply signedFromAncestor_ok|]. intros T1 ok L1 P. cbv beta in P. destruct ok; [|apply W]. specialize (P eq_refl).
  eapply wp_seq; [apply IH|]. intros T2 more L2 PM. cbn. intros r I. apply in_app_or in I. destruct I as [I|I].
  - exists g. split; [left; reflexivity|]. split; [exact I|]. exact (auth_sigs_mono _ _ _ _ _ L2 P).
  - destruct (PM r I) as (g' & IG & R). exists g'. split; [right; exact IG|exact R].
Qed.

Definition denied_s (a : msg) (q : question) (T : N) : Prop := exists rs,
  (forall r, In r rs -> exists g, In g (groups (m_ns a)) /\ In r (g_rrs g) /\ auth_sigs (g_sigs g) (canonicalName (q_name q)) (g_rrs g) T) /\
  (nsecProvesDenial (flat_map as_nsec rs) (canonicalName (q_name q)) (q_type q) (m_rcode a) = true \/
   nsec3ProvesDenial hashName (flat_map as_nsec3 rs) (canonicalName (q_name q)) (q_type q) (m_rcode a) = true).
Lemma canonical_cut name : cut_above (canonicalName name) = fun T => exists zone, In zone (suffix_zones (splitDomainName (dbl name))) /\ nods zone T.
Proof. reflexivity. Qed.
Lemma validateDenial_ok a T :
  wp (fun T' r => match r with
                  | None => exists q, head (m_question a) = Some q /\ denied_s a q T'
                  | Some Insecure => exists q, head (m_question a) = Some q /\ cut_above (canonicalName (q_name q)) T'
                  | Some Bogus => True end) T (validateDenial verify keyTag toDS hashName a).
Proof.
  unfold validateDenial. destruct (m_question a) as [|q qs]; [exact I|]. cbn [wp]. intros T1 gs L1 PG.
  eapply wp_seq; [apply collect_ok|]. intros T2 rs L2 PC. cbv beta in PC.
  assert (C : forall r, In r rs -> exists g, In g (groups (m_ns a)) /\ In r (g_rrs g) /\ auth_sigs (g_sigs g) (canonicalName (q_name q)) (g_rrs g) T2).
  { intros r I. destruct (PC r I) as (g & IG & R). exists g. split; [|exact R]. apply (Permutation_in g (Permutation_sym PG)), IG. }
  destruct (nsecProvesDenial (flat_map as_nsec rs) (canonicalName (q_name q)) (q_type q) (m_rcode a)) eqn:D1.
  { cbn. exists q. split; [reflexivity|]. exists rs. split; [exact C|left; exact D1]. }
  destruct (nsec3ProvesDenial hashName (flat_map as_nsec3 rs) (canonicalName (q_name q)) (q_type q) (m_rcode a)) eqn:D2.
  { cbn. exists q. split; [reflexivity|]. exists rs. split; [exact C|right; exact D2]. }
  eapply wp_seq; [apply checkInsecure_ok|]. intros T3 e L3 P. cbv beta in P. destruct e as [[]|]; cbn; auto. exists q. auto.
Qed.
Definition group_post (g : group) (T : N) : Prop := auth_sigs (g_sigs g) (canonicalName (first_name (g_rrs g))) (g_rrs g) T.
Definition group_insecure (g : group) (T : N) : Prop := cut_above (first_name (g_rrs g)) T \/
  exists sig, In sig (g_sigs g) /\ isSubDomain (canonicalName (sig_signer sig)) (canonicalName (first_name (g_rrs g))) = true /\ insec_s (dbl (sig_signer sig)) T.
Lemma validate_groups_ok gs : forall T,
  wp (fun T' r => match r with
                  | None => Forall (fun g => group_post g T') gs
                  | Some Insecure => Exists (fun g => group_insecure g T') gs
                  | Some Bogus => True end) T (validate_groups verify keyTag toDS hashName gs).
Proof.
  induction gs as [|g gs IH]; intros T; cbn [validate_groups]; [constructor|].
  eapply wp_seq with (P := fun T' e => match e with None => group_post g T' | Some Insecure => group_insecure g T' | Some Bogus => True end).
  - destruct (g_sigs g) as [|s ss] eqn:ES.
    + eapply wp_seq; [apply checkInsecure_ok|]. intros T1 e L1 P. cbv beta in P. destruct e as [[]|]; cbn; auto. left. auto.
    + rewrite <- ES. unfold validateRRset. eapply wp_conseq; [apply rrset_loop_ok|]. intros T1 r L1 P. cbv beta in P. destruct r as [[]|]; auto.
      * right. destruct P as [P|P]; [discriminate P|exact P].
      * destruct P as [[P _]|P]; [rewrite ES in P; discriminate P|exact P].
  - intros T1 e L1 P. cbv beta in P. destruct e as [[]|].
    + cbn. left. exact P.
    + exact I.
    + eapply wp_conseq; [apply IH|]. intros T2 r L2 P2. cbv beta in P2. destruct r as [[]|]; auto.
      constructor; [|exact P2]. exact (auth_sigs_mono _ _ _ _ _ L2 P).
Qed.
Definition valid_s (a : msg) (T : N) : Prop :=
  (m_answer a = [] -> exists q, head (m_question a) = Some q /\ denied_s a q T) /\ (m_answer a <> [] -> forall g, In g (groups (m_answer a)) -> group_post g T).
Definition insecure_s (a : msg) (T : N) : Prop :=
  (m_answer a = [] -> exists q, head (m_question a) = Some q /\ cut_above (canonicalName (q_name q)) T) /\ (m_answer a <> [] -> exists g, In g (groups (m_answer a)) /\ group_insecure g T).
Lemma validate_ok a T :
  wp (fun T' r => match r with None => valid_s a T' | Some Insecure => insecure_s a T' | Some Bogus => True end) T (validate verify keyTag toDS hashName a).
Proof.
  unfold validate. destruct (m_answer a) as [|r0 rs0] eqn:E.
  - eapply wp_conseq; [apply validateDenial_ok|]. intros T1 r L1 P. cbv beta in P. unfold valid_s, insecure_s. destruct r as [[]|]; auto; (split; [auto|congruence]).
  - cbn [wp]. intros T1 gs L1 PG. eapply wp_conseq; [apply validate_groups_ok|]. intros T2 r L2 P. cbv beta in P. unfold valid_s, insecure_s. rewrite E. destruct r as [[]|]; auto; (split; [discriminate|]); intros _.
    + apply Exists_exists in P. destruct P as (g & I & P). exists g. split; [|exact P]. apply (Permutation_in g (Permutation_sym PG)), I.
    + intros g I. apply (proj1 (Forall_forall _ _) P). apply (Permutation_in g PG), I.
Qed.
End PROOFS.
