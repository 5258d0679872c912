(** Programs of the validator under a faithful resolver: the keys of secure zones are found and kept. *)
From Verif Require Import Base Base_proofs Bytes Dns Name_model Name_spec Name_proofs Denial_model Denial_spec Denial_proofs Keystore_model Dnssec_model Dnssec_spec Dnssec_proofs Dnssec_sys Honest_spec.
From Verif Require Anchor_proofs.
From Coq Require Import ZArith ZifyBool ZifyNat ZifyN.
Open Scope N_scope.

Lemma flagged_is f l : filter (has_flags f) l = filter (flagged f) l.
Proof. apply filter_ext. intros r. unfold has_flags, flagged, key_flags. destruct (rr_data r); reflexivity. Qed.
Lemma digest_is l : filter is_ds l = filter digest l.
Proof. apply filter_ext. intros r. unfold is_ds, digest. destruct (rr_data r); reflexivity. Qed.
Lemma signature_is r : is_rrsig r = signature r.
Proof. unfold is_rrsig, signature. destruct (rr_data r); reflexivity. Qed.
Lemma covers_sig s t n : covers s t n -> is_rrsig s = true /\ sig_covered s = t /\ sig_signer s = n.
Proof. intros (a & b & c & d & e & f & g & E). unfold is_rrsig, sig_covered, sig_signer. rewrite E. auto. Qed.
Lemma names_root_canonical s n : names s n -> canonicalName s = show n.
Proof. intros H. apply (names_canonical s n H). Qed.

Section HONEST.
Variable verify : rr -> rr -> list rr -> bool.
Variable keyTag : rr -> N.
Variable toDS : rr -> N -> option string.
Variable hashName : string -> N -> N -> string -> string.
Variable anchors : list anchor.
Variable W : msg -> result -> Prop.
Variables t0 T : N.
Variable tr : tree.
Variable secure : name -> Prop.
Hypothesis H : faithful verify keyTag toDS anchors W t0 T tr secure.
Notation lasting := (lasting verify keyTag t0 T).
Notation verifyRRSIG := (verifyRRSIG verify keyTag).

Lemma secure_name n : secure n -> name_ok n /\ lname n = n /\ no_dots n.
Proof. intros S. destruct H as (_ & _ & K & _). destruct (K n S) as (A & B & C & _). auto. Qed.
Lemma good_verify sig keys rrset t : good_sig verify keyTag keys rrset sig t -> verifyRRSIG sig keys rrset t = true.
Proof.
  intros (c & al & la & ot & e & i & tg & sn & da & k & kf & kp & kd & E & K & KD & KT & V & A & B).
  unfold Dnssec_model.verifyRRSIG. rewrite E. rewrite (proj2 (validity_spec i e t) (conj A B)). apply existsb_exists. exists k. split; [|exact V].
  unfold findKeysByTag. apply filter_In. split; [exact K|]. unfold key_alg. rewrite KD, KT, !N.eqb_refl. reflexivity.
Qed.

(** The keys are right if the zone is secure. *)
Definition fine (z : string) (zsk ksk : list rr) : Prop := forall n, secure n -> z = show n -> zsk = t_zsk tr n /\ ksk = t_ksk tr n.
Fixpoint hp {R} (Q : R -> Prop) (p : prog R) : Prop :=
  match p with
  | Ret r => Q r
  | Panic => True
  | Fuel => True
  | Ask q k => forall a, W q a -> hp Q (k a)
  | Now k => forall t, t0 <= t -> t <= T -> hp Q (k t)
  | GetKeys z k => forall zsk ksk, (zsk = [] /\ ksk = []) \/ fine (canonicalName z) zsk ksk -> hp Q (k (zsk, ksk))
  | PutKeys z ks t k => fine (canonicalName z) (filter (has_flags 256) ks) (filter (has_flags 257) ks) /\ hp Q k
  | GetDS z k => forall ds, (canonicalName z = "."%string -> ds = root_ds anchors) -> hp Q (k ds)
  | Shuffle l k => forall l', Permutation l l' -> hp Q (k l')
  end.
Lemma hp_conseq {R} (Q Q' : R -> Prop) (p : prog R) : hp Q p -> (forall r, Q r -> Q' r) -> hp Q' p.
Proof. induction p as [r| | |q k IH|k IH|z k IH|z ks t k IH|z k IH|l k IH]; cbn; intros A I; auto. destruct A as [A B]. auto. Qed.
Lemma hp_bind {A B} (Q : B -> Prop) (f : A -> prog B) (p : prog A) : hp (fun r => hp Q (f r)) p -> hp Q (bind p f).
Proof. induction p as [r| | |q k IH|k IH|z k IH|z ks t k IH|z k IH|l k IH]; cbn; intros X; auto. destruct X as [X Y]. auto. Qed.
Lemma hp_seq {A B} (P : A -> Prop) (Q : B -> Prop) (f : A -> prog B) (p : prog A) : hp P p -> (forall r, P r -> hp Q (f r)) -> hp Q (bind p f).
Proof. intros X I. apply hp_bind. exact (hp_conseq _ _ p X I). Qed.

Lemma any_good sigs keys rrset : (exists s, In s sigs /\ lasting keys rrset s) -> hp (fun b => b = true) (anySig verify keyTag sigs keys rrset).
Proof.
  induction sigs as [|s sigs IH]; intros (x & I & L); [destruct I|]. cbn. intros t A B. destruct (verifyRRSIG s keys rrset t) eqn:V; [reflexivity|].
  apply IH. destruct I as [<-|I]; [|eauto]. rewrite (good_verify _ _ _ _ (L t A B)) in V. discriminate V.
Qed.
Lemma any_if (P : Prop) sigs keys rrset : (P -> exists s, In s sigs /\ lasting keys rrset s) -> hp (fun b => P -> b = true) (anySig verify keyTag sigs keys rrset).
Proof.
  induction sigs as [|s sigs IH]; intros G; cbn.
  - intros p. destruct (G p) as (x & [] & _).
  - intros t A B. destruct (verifyRRSIG s keys rrset t) eqn:V; [cbn; auto|]. apply IH. intros p. destruct (G p) as (x & I & L). destruct I as [<-|I]; [|eauto]. rewrite (good_verify _ _ _ _ (L t A B)) in V. discriminate V.
Qed.
Lemma any_hp sigs keys rrset : hp (fun _ => True) (anySig verify keyTag sigs keys rrset).
Proof. induction sigs as [|s sigs IH]; cbn; auto. intros t A B. destruct (verifyRRSIG s keys rrset t); cbn; auto. Qed.

(** ** The chain *)
Definition chain_right (zone : string) (r : chain_result) : Prop := forall n, secure n -> canonicalName zone = show n -> r = inr (t_zsk tr n, t_ksk tr n).
Lemma key_question z t : m_question (key_query z t) = [Q (canonicalName z) t 1].
Proof. reflexivity. Qed.
Lemma split_fine ks zsk ksk z : key_set zsk ksk -> ks = zsk ++ ksk -> (forall n, secure n -> canonicalName z = show n -> zsk = t_zsk tr n /\ ksk = t_ksk tr n) ->
  fine (canonicalName z) (filter (has_flags 256) ks) (filter (has_flags 257) ks).
Proof. intros K -> F n S E. destruct (key_set_split _ _ K) as [-> ->]. apply F; assumption. Qed.
(** What is needed of the keys that came for a zone. *)
Definition arrived (zone : string) (zsk ksk sigs : list rr) : Prop := key_set zsk ksk /\
  forall n, secure n -> dbl zone = show n -> zsk = t_zsk tr n /\ ksk = t_ksk tr n /\
    exists k sig, In sig sigs /\ sig_covered sig = 48 /\ canonicalName (sig_signer sig) = show n /\ In k (t_ksk tr n) /\ identified toDS anchors tr n k /\ lasting [k] (t_zsk tr n ++ t_ksk tr n) sig.
Lemma lookup_hp zone : hp (fun r => match r with
    | None => forall n, secure n -> dbl zone <> show n
    | Some (zsk, ksk, sigs) => arrived zone zsk ksk sigs
    end) (lookupDNSKEY (canonicalName zone)).
Proof.
  cbn [lookupDNSKEY hp]. intros r HW.
  assert (G : forall n, secure n -> dbl zone = show n -> exists a k sig signer,
    r = Ans a /\ m_rcode a = 0 /\ filter (flagged 256) (m_answer a) = t_zsk tr n /\ filter (flagged 257) (m_answer a) = t_ksk tr n /\
    In sig (m_answer a) /\ covers sig 48 signer /\ names signer n /\ In k (t_ksk tr n) /\ identified toDS anchors tr n k /\ lasting [k] (t_zsk tr n ++ t_ksk tr n) sig).
  { intros n S E. destruct H as (_ & _ & K & _). destruct (K n S) as (_ & _ & _ & SK). apply (SK _ r) in HW; [exact HW|]. unfold asks_for. rewrite key_question. unfold dbl in E. rewrite E. reflexivity. }
  destruct r as [a| |e]; cbn [hp].
  - unfold RcodeSuccess. destruct (N.eqb_spec (m_rcode a) 0) as [RC|RC]; cbn [negb hp].
    + unfold arrived. split.
      * split; apply Forall_forall; intros k I; apply filter_In in I; apply flags_key, I.
      * intros n S E. destruct (G n S E) as (a' & k & sig & signer & [= <-] & _ & Z & K & IS & CV & NS & IK & ID & LA). rewrite !flagged_is. split; [exact Z|]. split; [exact K|].
        destruct (covers_sig _ _ _ CV) as (R & C & SN). exists k, sig. split; [apply filter_In; split; assumption|]. split; [exact C|]. rewrite SN. split; [apply names_root_canonical, NS|]. auto.
    + intros n S E. destruct (G n S E) as (a' & k & sig & signer & [= <-] & RC' & _). contradiction.
  - exact I.
  - intros n S E. destruct (G n S E) as (a' & k & sig & signer & [=] & _).
Qed.
Lemma digest_matches k d tag alg dt dg : rr_data d = DDS tag alg dt dg -> digest_of toDS k dt dg -> ds_matches toDS k d = true.
Proof. intros E (c & D & L). unfold ds_matches. rewrite E, D. unfold equal_fold. apply String.eqb_eq, L. Qed.
Lemma finish_hp zone zsk ksk sigs ds : arrived zone zsk ksk sigs ->
  (forall n k, secure n -> canonicalName zone = show n -> identified toDS anchors tr n k -> exists d, In d ds /\ ds_matches toDS k d = true) ->
  hp (chain_right zone) (finish verify keyTag toDS (canonicalName zone) zsk ksk sigs ds).
Proof.
  intros [K A] D. unfold finish. set (trustedKSK := filterKeysByDS toDS ksk ds).
  assert (G : forall n, secure n -> canonicalName zone = show n -> exists k sig, In k trustedKSK /\ In sig (filter (fun s => String.eqb (canonicalName (sig_signer s)) (canonicalName zone) && N.eqb (sig_covered s) TypeDNSKEY) sigs) /\
    lasting trustedKSK (zsk ++ ksk) sig).
  { intros n S E. assert (E2 : dbl zone = show n).
    { destruct (secure_name n S) as (O & L & _). unfold dbl. rewrite E, canonicalName_show, L by exact O. reflexivity. }
    destruct (A n S E2) as (-> & -> & k & sig & IS & C & SN & IK & ID & LA). destruct (D n k S E ID) as (d & I & M). exists k, sig.
    assert (IT : In k trustedKSK) by (apply filter_In; split; [exact IK|]; apply existsb_exists; eauto).
    split; [exact IT|]. split.
    - apply filter_In. split; [exact IS|]. rewrite C, SN, E, String.eqb_refl. reflexivity.
    - intros t X Y. apply (good_mono verify keyTag [k]); [|apply LA; assumption]. intros x [<-|[]]. exact IT. }
  clearbody trustedKSK. destruct trustedKSK as [|k0 ks0] eqn:ET.
  - intros n S E. destruct (G n S E) as (k & sig & [] & _).
  - rewrite <- ET in *. clear ET k0 ks0. apply (hp_seq (fun ok => (exists n, secure n /\ canonicalName zone = show n) -> ok = true)).
    + apply any_if. intros (n & S & E). destruct (G n S E) as (k & sig & _ & I & L). eauto.
    + intros ok OK. destruct ok; cbn [negb].
      * cbn. intros t _ _. split.
        -- apply (split_fine _ zsk ksk); [exact K|reflexivity|]. intros n S E. apply (A n S) in E. destruct E as (-> & -> & _). auto.
        -- intros n S E. assert (E2 : dbl zone = show n).
           { destruct (secure_name n S) as (O & L & _). unfold dbl. rewrite E, canonicalName_show, L by exact O. reflexivity. }
           destruct (A n S E2) as (-> & -> & _). reflexivity.
      * intros n S E. specialize (OK (ex_intro _ n (conj S E))). discriminate OK.
Qed.
Lemma secure_dbl zone n : secure n -> canonicalName zone = show n -> dbl zone = show n.
Proof. intros S E. destruct (secure_name n S) as (O & L & _). unfold dbl. rewrite E, canonicalName_show, L by exact O. reflexivity. Qed.
Lemma show_dot n : name_ok n -> show n = "."%string -> n = [].
Proof. intros O E. apply show_inj; [exact O|constructor|]. rewrite E. reflexivity. Qed.
Lemma lookupDS_hp zone (Q : option (list rr * list rr * msg) -> Prop) :
  (forall r, W (key_query zone 43) r -> match r with
     | Ans a => if N.eqb (m_rcode a) 0 then Q (Some (filter is_ds (m_answer a), filter (fun r => is_rrsig r && N.eqb (sig_covered r) TypeDS) (m_answer a), a)) else Q (Some ([], [], a))
     | Drop => True | Err _ => Q None end) -> hp Q (lookupDS zone).
Proof. intros G. cbn [lookupDS hp]. intros r HW. specialize (G r HW). destruct r as [a| |e]; cbn; auto. unfold RcodeSuccess. destruct (m_rcode a =? 0); exact G. Qed.
(** The DS records that came for a zone *)
Definition ds_right (zone : string) (r : option (list rr * list rr * msg)) : Prop := forall l n, secure (l :: n) -> canonicalName zone = show (l :: n) ->
  exists ds sigs resp sig, r = Some (ds, sigs, resp) /\ ds = t_ds tr (l :: n) /\ ds <> [] /\ In sig sigs /\ lasting (t_zsk tr n) ds sig.
Lemma ds_hp zone : hp (ds_right zone) (lookupDS zone).
Proof.
  apply lookupDS_hp. intros r HW.
  assert (G : forall l n, secure (l :: n) -> canonicalName zone = show (l :: n) -> exists a sig signer,
    r = Ans a /\ m_rcode a = 0 /\ filter digest (m_answer a) = t_ds tr (l :: n) /\ t_ds tr (l :: n) <> [] /\ In sig (m_answer a) /\ covers sig 43 signer /\ lasting (t_zsk tr n) (t_ds tr (l :: n)) sig).
  { intros l n S E. destruct H as (_ & D & _). destruct (D l n S) as [_ SD]. apply (SD _ r) in HW; [exact HW|]. unfold asks_for. rewrite key_question, E. reflexivity. }
  destruct r as [a| |e]; cbn; auto.
  - destruct (N.eqb_spec (m_rcode a) 0) as [RC|RC]; intros l n S E; destruct (G l n S E) as (a' & sig & signer & [= <-] & RC' & F & NE & I & C & L); [|contradiction].
    destruct (covers_sig _ _ _ C) as (X & Y & _). do 3 eexists. exists sig. split; [reflexivity|]. rewrite digest_is, F. split; [reflexivity|]. split; [exact NE|]. split; [|exact L]. apply filter_In. split; [exact I|]. rewrite X, Y. reflexivity.
  - intros l n S E. destruct (G l n S E) as (a' & sig & signer & [=] & _).
Qed.
Lemma root_identified k : identified toDS anchors tr [] k -> exists d, In d (root_ds anchors) /\ ds_matches toDS k d = true.
Proof.
  intros (a & I & N & D). exists (anchor_ds a). split.
  - apply in_map, filter_In. split; [exact I|]. apply String.eqb_eq. exact (names_root_canonical _ _ N).
  - destruct D as (c & E & L). unfold ds_matches, anchor_ds. cbn. rewrite E. unfold equal_fold. apply String.eqb_eq. rewrite L. symmetry. apply lower_upper.
Qed.
Lemma chain_hp fuel zone : hp (chain_right zone) (chain verify keyTag toDS hashName fuel zone).
Proof.
  revert zone. induction fuel as [|fuel IH]; intros zone; [exact I|]. cbn [chain]. cbn [hp]. intros zsk0 ksk0 F0.
  assert (C : zsk0 <> [] \/ ksk0 <> [] -> chain_right zone (inr (zsk0, ksk0))).
  { intros NE n S E. destruct F0 as [[-> ->]|F0]; [destruct NE; contradiction|]. destruct (F0 n S (secure_dbl _ _ S E)) as [-> ->]. reflexivity. }
  destruct zsk0; [destruct ksk0|]; [|apply C; right; discriminate|apply C; left; discriminate]. clear F0 C.
  eapply hp_seq; [apply lookup_hp|]. intros [[[zsk ksk] sigs]|] A.
  2:{ intros n S E. destruct (A n S). apply secure_dbl; assumption. }
  destruct ksk as [|k0 ksk1] eqn:EK.
  { intros n S E. destruct A as [_ A]. destruct (A n S (secure_dbl _ _ S E)) as (_ & <- & k & sig & _ & _ & _ & [] & _). }
  rewrite <- EK in *. clear EK k0 ksk1. destruct (String.eqb_spec (canonicalName zone) ".") as [R|R].
  - cbn [hp]. intros ds ED. specialize (ED eq_refl).
    assert (G : forall n k, secure n -> canonicalName zone = show n -> identified toDS anchors tr n k -> exists d, In d ds /\ ds_matches toDS k d = true).
    { intros n k S E ID. rewrite ED. destruct (secure_name n S) as (O & _). rewrite R in E. apply eq_sym, (show_dot n O) in E. subst n. apply root_identified, ID. }
    destruct ds as [|d0 ds].
    + intros n S E. destruct A as [_ A]. destruct (A n S (secure_dbl _ _ S E)) as (_ & _ & k & sig & _ & _ & _ & _ & ID & _). destruct (G n k S E ID) as (d & [] & _).
    + apply finish_hp; [exact A|exact G].
  - eapply hp_seq; [apply ds_hp|]. intros dsr D.
    assert (NR : forall n, secure n -> canonicalName zone = show n -> exists l m, n = l :: m /\ secure m /\ canonicalName (canonicalName zone) = show (l :: m) /\ canonicalName (parentZone (canonicalName zone)) = show m).
    { intros [|l m] S E; [elim R; exact E|]. exists l, m. split; [reflexivity|]. destruct H as (_ & HD & _). split; [apply (HD l m S)|]. split; [apply (secure_dbl _ _ S E)|].
      destruct (secure_name _ S) as (O & L & ND). destruct (secure_name m (proj1 (HD l m S))) as (Om & Lm & _). rewrite E, parent_show; [|exact O|exact L|inversion ND; assumption]. rewrite canonicalName_show, Lm by exact Om. reflexivity. }
    destruct dsr as [[[ds dsSigs] resp]|].
    2:{ intros n S E. destruct (NR n S E) as (l & m & -> & _ & E2 & _). destruct (D l m S E2) as (? & ? & ? & ? & [=] & _). }
    eapply hp_seq; [apply IH|]. intros parent P. destruct parent as [e|[pz pk]].
    { intros n S E. destruct (NR n S E) as (l & m & -> & Sm & _ & Em). specialize (P m Sm Em). discriminate P. }
    assert (G : forall n, secure n -> canonicalName zone = show n -> ds = t_ds tr n /\ ds <> [] /\ (exists l m, n = l :: m) /\ exists sig, In sig dsSigs /\ lasting pz ds sig).
    { intros n S E. destruct (NR n S E) as (l & m & -> & Sm & E2 & Em). destruct (D l m S E2) as (ds' & sg & rs & sig & [= -> -> ->] & ED & NE & IS & L). specialize (P m Sm Em). injection P as -> ->. subst ds'. eauto 10. }
    destruct ds as [|d0 ds'] eqn:ED.
    + cbn [hp]. intros t _ _. destruct (verifyDSDenial _ _ _ _ _ _ _); intros n S E; destruct (G n S E) as (_ & X & _); elim X; reflexivity.
    + rewrite <- ED in *. clear ED d0 ds'. destruct dsSigs as [|s0 ss] eqn:ES.
      * intros n S E. destruct (G n S E) as (_ & _ & _ & sig & [] & _).
      * rewrite <- ES in *. clear ES s0 ss. apply (hp_seq (fun ok => (exists n, secure n /\ canonicalName zone = show n) -> ok = true)).
        -- apply any_if. intros (n & S & E). destruct (G n S E) as (_ & _ & _ & X). exact X.
        -- intros [|] OK; [|intros n S E; specialize (OK (ex_intro _ n (conj S E))); discriminate OK].
           apply finish_hp; [exact A|]. intros n k S E ID. destruct (G n S E) as (-> & _ & (l & m & ->) & _). destruct ID as (d & tag & alg & dt & dg & I & DD & DG). exists d. split; [exact I|]. eapply digest_matches; eassumption.
Qed.
End HONEST.
