(** From the strings of the code to names, and from single programs to many at a time. *)
From Verif Require Import Base Base_proofs Bytes Dns Name_model Name_spec Name_proofs Denial_model Denial_spec Denial_proofs Keystore_model Dnssec_model Dnssec_spec Dnssec_proofs.
From Coq Require Import ZArith ZifyBool ZifyNat ZifyN.
Open Scope N_scope.

(** ** Names *)
Fixpoint dotless (s : string) : bool := match s with EmptyString => true | String c s' => negb (Ascii.eqb c dot) && dotless s' end.
Lemma dotless_app a b : dotless (a ++ b) = dotless a && dotless b.
Proof. induction a as [|c a IH]; cbn; [reflexivity|]. rewrite IH, andb_assoc. reflexivity. Qed.
Lemma dotless_byte b : b < 256 -> b <> 46 -> dotless (show_byte b) = true.
Proof.
  intros B NB. assert (H : (b =? 46) || dotless (show_byte b) = true) by (apply (all_bytes (fun b => (b =? 46) || dotless (show_byte b))); [vm_compute; reflexivity|exact B]).
  apply orb_prop in H. destruct H as [H|H]; [apply N.eqb_eq in H; congruence|exact H].
Qed.
Lemma dotless_label l : Forall (fun b => b < 256) l -> ~ In 46 l -> dotless (show_label l) = true.
Proof.
  induction 1 as [|b l B _ IH]; intros N; [reflexivity|]. cbn [show_label]. rewrite dotless_app, dotless_byte, IH; [reflexivity| |exact B|]; intros X; apply N; [right; exact X|left; auto].
Qed.
Lemma cut_dotless s r : dotless s = true -> cut_dot (s ++ String dot r) = Some r.
Proof. induction s as [|c s IH]; cbn; [reflexivity|]. intros H. apply andb_prop in H. destruct H as [H1 H2]. apply negb_true_iff in H1. rewrite H1. apply IH, H2. Qed.
Lemma label_okb l n : name_ok (l :: n) -> Forall (fun b => b < 256) l /\ l <> [].
Proof. intros H. inversion H as [|? ? [A B]]. auto. Qed.
Lemma show_okz n : name_ok n -> lname n = n -> okz (show n).
Proof. intros O L. split; [rewrite show_lower, L by exact O; reflexivity|apply show_fqdn, O]. Qed.
Lemma labels_empty n : name_ok n -> show_labels n = EmptyString -> n = [].
Proof. destruct n as [|l n]; [reflexivity|]. intros _. cbn. intros H. exfalso. destruct (show_label l); discriminate H. Qed.
Lemma parent_show l n : name_ok (l :: n) -> lname (l :: n) = l :: n -> ~ In 46 l -> parentZone (show (l :: n)) = show n.
Proof.
  intros O L D. unfold parentZone. rewrite (okz_canonical _ (show_okz _ O L)). rewrite (show_root _ O). cbn [show show_labels]. destruct (label_okb l n O) as [B _].
  rewrite cut_dotless by (apply dotless_label; assumption). inversion O as [|? ? _ On]; subst. destruct (show_labels n =? "")%string eqn:E.
  - apply String.eqb_eq in E. rewrite (labels_empty n On E). reflexivity.
  - destruct n as [|m n]; [cbn in E; discriminate E|reflexivity].
Qed.
(** Names without dots in their labels do not end with two dots. *)
Fixpoint ends_dd (s : string) : bool := match s with EmptyString => false | String c s' => String.eqb s ".." || ends_dd s' end.
Lemma ends_dd_app t : ends_dd (t ++ "..") = true.
Proof. induction t as [|c t IH]; [reflexivity|]. cbn. rewrite IH. apply orb_true_r. Qed.
Lemma ends_dd_cons c s : (2 <= String.length s)%nat -> ends_dd (String c s) = ends_dd s.
Proof.
  intros L. cbn [ends_dd]. destruct (String c s =? "..")%string eqn:E; [|reflexivity]. apply String.eqb_eq in E. injection E as _ E. subst s. cbn in L. lia.
Qed.
Lemma ends_dd_pre a s : (2 <= String.length s)%nat -> ends_dd (a ++ s) = ends_dd s.
Proof.
  intros L. induction a as [|c a IH]; [reflexivity|]. cbn [append]. rewrite ends_dd_cons; [exact IH|]. clear IH. induction a as [|d a IH]; cbn; [exact L|lia].
Qed.
Lemma ends_dd_dotless u : dotless u = true -> ends_dd (u ++ String dot EmptyString) = false.
Proof.
  induction u as [|c u IH]; [reflexivity|]. cbn [dotless]. intros H. apply andb_prop in H. destruct H as [H1 H2]. cbn [append ends_dd]. rewrite (IH H2), orb_false_r.
  apply String.eqb_neq. intros E. injection E as E _. subst c. discriminate H1.
Qed.
Lemma show_label_len l : l <> [] -> (1 <= String.length (show_label l))%nat.
Proof.
  destruct l as [|b l]; [congruence|]. intros _. cbn [show_label]. assert (H : (1 <= String.length (show_byte b))%nat) by (unfold show_byte; destruct (special b); [cbn; lia|]; destruct ((b <? 32) || (126 <? b)); cbn; lia).
  clear -H. induction (show_byte b) as [|c s IH]; cbn in *; [lia|lia].
Qed.
Lemma labels_dd n : name_ok n -> no_dots n -> ends_dd (show_labels n) = false.
Proof.
  induction n as [|l n IH]; [reflexivity|]. intros O D. destruct (label_okb l n O) as [B NE]. inversion O as [|? ? _ On]; subst. inversion D as [|? ? Dl Dn]; subst. cbn [show_labels].
  destruct n as [|m n].
  - apply ends_dd_dotless, dotless_label; assumption.
  - change (String dot (show_labels (m :: n))) with ("." ++ show_labels (m :: n))%string. rewrite <- string_app_assoc. rewrite ends_dd_pre; [apply IH; assumption|].
    inversion On as [|? ? Om _]; subst. pose proof (show_label_len m (proj1 Om)) as L. cbn [show_labels]. clear -L. set (r := show_labels n). clearbody r. induction (show_label m) as [|c s IHs]; [cbn in L; lia|]. cbn in *. destruct s as [|d s]; [cbn; lia|]. cbn in *. lia.
Qed.
Lemma dbl_show s n : name_ok n -> no_dots n -> dbl s = show n -> canonicalName s = show n.
Proof.
  intros O D H. destruct (isFqdn (canonicalName s)) eqn:F.
  - unfold dbl in H. rewrite (canonical_fix _ (canonical_lower s)), F in H. exact H.
  - unfold dbl in H. rewrite (canonical_fix _ (canonical_lower s)), F in H. exfalso.
    unfold canonicalName, fqdn in H, F. destruct (isFqdn s) eqn:G; unfold isFqdn in *; rewrite fq_lower in F; [congruence|]. rewrite lower_app, string_app_assoc in H. cbn in H.
    assert (E : ends_dd (show n) = true) by (rewrite <- H; apply ends_dd_app). destruct n as [|l n]; [discriminate E|]. cbn [show] in E. rewrite labels_dd in E by assumption. discriminate E.
Qed.
Lemma names_canonical s n : names s n -> canonicalName s = show n /\ name_ok n /\ lname n = n /\ dbl s = show n.
Proof.
  intros (n' & O & -> & <-). rewrite canonicalName_show by exact O. split; [reflexivity|]. split; [apply lname_ok, O|]. split; [apply lname_idem|].
  unfold dbl. rewrite canonicalName_show by exact O. rewrite canonicalName_show by (apply lname_ok, O). rewrite lname_idem. reflexivity.
Qed.
Lemma names_inj s n m : names s n -> names s m -> n = m.
Proof. intros A B. destruct (names_canonical s n A) as (E1 & O1 & _). destruct (names_canonical s m B) as (E2 & O2 & _). apply show_inj; congruence. Qed.
Lemma suffix_lower s n : lname n = n -> suffix s n -> lname s = s.
Proof.
  intros L (pre & ->). unfold lname in *. rewrite map_app in L. apply app_inj_tail_iff || idtac. revert L. induction pre as [|p pre IH]; cbn; [auto|]. intros L. injection L as _ L. apply IH, L.
Qed.
Lemma suffix_ok s n : name_ok n -> suffix s n -> name_ok s.
Proof. intros O (pre & ->). apply Forall_app in O. apply O. Qed.
Lemma suffix_dots s n : no_dots n -> suffix s n -> no_dots s.
Proof. intros O (pre & ->). apply Forall_app in O. apply O. Qed.
Lemma suffix_trans a b c : suffix a b -> suffix b c -> suffix a c.
Proof. intros (p & ->) (q & ->). exists (q ++ p). apply app_assoc. Qed.
Lemma sub_show s n : name_ok s -> name_ok n -> lname s = s -> lname n = n -> isSubDomain (show s) (show n) = true -> suffix s n.
Proof. intros OS ON LS LN H. apply (isSubDomain_show s n OS ON) in H. destruct H as (pre & E). rewrite LS, LN in E. exists pre. exact E. Qed.
(** The zones that are looked at for a name: all but the root. *)
Lemma zones_show n zone : name_ok n -> In zone (suffix_zones (splitDomainName (show n))) -> exists l m, suffix (l :: m) n /\ zone = show (l :: m).
Proof.
  intros O. rewrite splitDomainName_show by exact O. induction n as [|l n IH]; cbn [map suffix_zones]; [contradiction|]. intros I. apply in_app_or in I. inversion O as [|? ? _ On]; subst. destruct I as [I|[<-|[]]].
  - destruct (IH On I) as (l' & m & S & E). exists l', m. split; [|exact E]. destruct S as (pre & ->). exists (l :: pre). reflexivity.
  - exists l, n. split; [exists []; reflexivity|]. change (show_label l :: map show_label n) with (map show_label (l :: n)). unfold fqdn, isFqdn. rewrite fq_join_labels by exact O. rewrite join_show by exact O. reflexivity.
Qed.

Section NAMES.
Variable verify : rr -> rr -> list rr -> bool.
Variable keyTag : rr -> N.
Variable toDS : rr -> N -> option string.
Variable hashName : string -> N -> N -> string -> string.
Variable anchors : list anchor.
Notation trusted_s := (trusted_s verify keyTag toDS anchors).
Notation trusted := (trusted verify keyTag toDS anchors).
Notation insec_s := (insec_s verify keyTag toDS hashName anchors).
Notation unsigned := (unsigned verify keyTag toDS hashName anchors).
Notation authenticated := (authenticated verify keyTag toDS anchors).

Lemma self_show n k zsk ksk T : name_ok n -> no_dots n -> self_signed_s verify keyTag (show n) k zsk ksk T -> self_signed verify keyTag n k zsk ksk T.
Proof.
  intros O D (I & s & t & L & G & IS & C & SN). split; [exact I|]. unfold is_rrsig in IS. unfold sig_covered in C. unfold sig_signer in SN. destruct (rr_data s) as [] eqn:E; try discriminate IS. subst.
  do 10 eexists. split; [exact L|]. split; [exact G|]. split; [exact E|]. apply dbl_show; assumption.
Qed.
Lemma show_not_root l n : name_ok (l :: n) -> show (l :: n) <> "."%string.
Proof. intros O E. pose proof (show_root _ O) as R. rewrite E in R. discriminate R. Qed.
Lemma trusted_show n : name_ok n -> lname n = n -> no_dots n -> forall zsk ksk T, trusted_s (show n) zsk ksk T -> trusted n zsk ksk T.
Proof.
  induction n as [|l n IH]; intros O L D zsk ksk T H.
  - cbn [show] in H. inversion H as [? ? ? k a IA OA DA SS K|z pz pk ? ? ? k ds d tag alg dt dg NR OZ]; subst; [|congruence].
    apply (trusted_root _ _ _ _ zsk ksk T k a); auto. apply self_show; auto.
  - remember (show (l :: n)) as z eqn:EZ. destruct H as [zsk ksk T k a IA OA DA SS K|z pz pk zsk ksk T k ds d tag alg dt dg NR OZ TP SD FD ID ED DG SS K].
    + exfalso. apply (show_not_root l n O). congruence.
    + subst z. inversion O as [|? ? _ On]; subst. pose proof L as L0. injection L as Ll Ln. inversion D as [|? ? Dl Dn]; subst. rewrite parent_show in TP by assumption.
      apply (trusted_child _ _ _ _ l n pz pk zsk ksk T k ds d tag alg dt dg); auto. apply self_show; auto.
Qed.
Lemma denies_show l n zsk ksk T s : suffix (l :: n) s -> trusted n zsk ksk T -> denies verify keyTag hashName zsk (show (l :: n)) T -> unsigned s T.
Proof.
  intros S TR (rs & r & SG & I & D). exists l, n, zsk, ksk, rs, r. split; [exact S|]. split; [exact TR|]. split; [exact SG|]. split; [exact I|]. unfold denies_ds in D. apply orb_prop in D. exact D.
Qed.
Lemma insec_show n : name_ok n -> lname n = n -> no_dots n -> forall T s, suffix n s -> insec_s (show n) T -> unsigned s T.
Proof.
  induction n as [|l n IH]; intros O L D T s S H.
  - cbn [show] in H. inversion H; congruence.
  - inversion O as [|? ? _ On]; subst. pose proof L as L0. injection L as Ll Ln. inversion D as [|? ? Dl Dn]; subst.
    assert (P : parentZone (show (l :: n)) = show n) by (apply parent_show; assumption).
    assert (SN : suffix n s) by (destruct S as (pre & ->); exists (pre ++ [l]); rewrite <- app_assoc; reflexivity).
    inversion H as [z zsk ksk T' NR OZ TP DN|z T' NR OZ HI]; subst; rewrite P in *.
    + apply (denies_show l n zsk ksk T s S); [apply trusted_show; assumption|exact DN].
    + apply (IH On Ln Dn T s SN HI).
Qed.
Lemma nods_show l n T s : name_ok (l :: n) -> lname (l :: n) = l :: n -> no_dots (l :: n) -> suffix (l :: n) s ->
  nods verify keyTag toDS hashName anchors (show (l :: n)) T -> unsigned s T.
Proof.
  intros O L D S H. inversion O as [|? ? _ On]; subst. pose proof L as L0. injection L as Ll Ln. inversion D as [|? ? Dl Dn]; subst.
  assert (P : parentZone (show (l :: n)) = show n) by (apply parent_show; assumption).
  assert (SN : suffix n s) by (destruct S as (pre & ->); exists (pre ++ [l]); rewrite <- app_assoc; reflexivity).
  unfold nods in H. rewrite P, (dbl_ok_id _ (show_okz n On Ln)), (okz_canonical _ (show_okz _ O L0)) in H. destruct H as [(zsk & ksk & TR & DN)|H].
  - apply (denies_show l n zsk ksk T s S); [apply trusted_show; assumption|exact DN].
  - apply (insec_show n On Ln Dn T s SN H).
Qed.
Lemma cut_show name n T : names name n -> no_dots n -> cut_above verify keyTag toDS hashName anchors name T -> unsigned n T.
Proof.
  intros NM D (zone & I & H). destruct (names_canonical name n NM) as (E & O & L & _). rewrite E in I. destruct (zones_show n zone O I) as (l & m & S & ->).
  apply (nods_show l m T n); auto; [exact (suffix_ok _ _ O S)|exact (suffix_lower _ _ L S)|exact (suffix_dots _ _ D S)].
Qed.
Lemma names_self n : name_ok n -> lname n = n -> names (show n) n.
Proof. intros O L. exists n. auto. Qed.

(** ** The groups of a section *)
Lemma key_eqb_eq a b : key_eqb a b = true <-> a = b.
Proof.
  unfold key_eqb. destruct a as [a1 a2], b as [b1 b2]. cbn. rewrite andb_true_iff, String.eqb_eq, N.eqb_eq. split; [intros [-> ->]; reflexivity|intros [= -> ->]; auto].
Qed.
Lemma in_dedup k l : In k (dedup l) <-> In k l.
Proof.
  induction l as [|x l IH]; cbn; [tauto|]. rewrite filter_In, IH. split; [intros [->|[I _]]; auto|]. intros [->|I]; [auto|]. destruct (key_eqb x k) eqn:E; [apply key_eqb_eq in E; auto|right; auto].
Qed.
Lemma is_rrsig_iff r : is_rrsig r = true <-> is_signature r.
Proof. unfold is_rrsig, is_signature. destruct (rr_data r); split; try discriminate; try (intros (c & a & l & o & e & i & t & s & d & H); discriminate H); try reflexivity. intros _. do 9 eexists. reflexivity. Qed.
Lemma group_spec sec g : In g (groups sec) -> exists k, g_rrs g = filter (fun r => key_eqb k (rr_key r)) (filter (fun r => negb (is_rrsig r)) sec) /\
  g_sigs g = filter (fun r => key_eqb k (sig_key r)) (filter is_rrsig sec) /\ exists r, In r (g_rrs g).
Proof.
  unfold groups. intros I. apply in_map_iff in I. destruct I as (k & <- & I). exists k. cbn [g_rrs g_sigs]. split; [reflexivity|]. split; [reflexivity|].
  apply (proj1 (in_dedup _ _)) in I. apply in_map_iff in I. destruct I as (r & E & I). exists r. apply filter_In. split; [exact I|]. apply key_eqb_eq. auto.
Qed.
Lemma group_of sec r : In r sec -> is_rrsig r = false -> exists g, In g (groups sec) /\ In r (g_rrs g).
Proof.
  intros I NS. eexists. split; [unfold groups; apply in_map; apply (proj2 (in_dedup _ _)); apply in_map with (f := rr_key); apply filter_In; split; [exact I|rewrite NS; reflexivity]|].
  cbn [g_rrs]. apply filter_In. split; [apply filter_In; split; [exact I|rewrite NS; reflexivity]|apply key_eqb_eq; unfold rr_key; reflexivity].
Qed.
Lemma group_rrset sec g r : section_ok sec -> In g (groups sec) -> In r (g_rrs g) -> In r sec /\ ~ is_signature r /\ rrset_of sec r (g_rrs g).
Proof.
  intros SO I IR. destruct (group_spec sec g I) as (k & ER & _ & _). rewrite ER in IR. apply filter_In in IR. destruct IR as [IR K]. apply filter_In in IR. destruct IR as [IS NS]. apply key_eqb_eq in K. subst k.
  split; [exact IS|]. split; [intros X; apply is_rrsig_iff in X; rewrite X in NS; discriminate NS|]. destruct (SO r IS) as [(n & NM & _) _]. exists n. split; [exact NM|]. intros x. rewrite ER, !filter_In. destruct (names_canonical _ _ NM) as (En & _).
  split.
  - intros ((IX & NX) & KX). apply key_eqb_eq in KX. unfold rr_key in KX. injection KX as KN KT. split; [exact IX|]. split; [intros X; apply is_rrsig_iff in X; rewrite X in NX; discriminate NX|]. split; [|auto].
    destruct (SO x IX) as [(m & NX' & _) _]. destruct (names_canonical _ _ NX') as (Em & Om & _). replace n with m; [exact NX'|]. destruct (names_canonical _ _ NM) as (_ & On & _). apply show_inj; congruence.
  - intros (IX & NX & NMX & TX). split; [split; [exact IX|]|].
    + destruct (is_rrsig x) eqn:X; [|reflexivity]. apply is_rrsig_iff in X. contradiction.
    + apply key_eqb_eq. unfold rr_key. destruct (names_canonical _ _ NMX) as (Em & _). congruence.
Qed.
Lemma group_name sec g r n : section_ok sec -> In g (groups sec) -> In r (g_rrs g) -> names (rr_name r) n -> canonicalName (first_name (g_rrs g)) = show n /\ names (first_name (g_rrs g)) n.
Proof.
  intros SO I IR NM. destruct (group_rrset sec g r SO I IR) as (IS & NS & n0 & N0 & RS). assert (n0 = n) by (apply (names_inj _ _ _ N0 NM)). subst n0.
  destruct (g_rrs g) as [|f fs] eqn:E; [contradiction IR|]. cbn [first_name]. destruct (proj1 (RS f) (or_introl eq_refl)) as (_ & _ & NF & _). split; [apply (names_canonical _ _ NF)|exact NF].
Qed.
Lemma group_sig sec g s : section_ok sec -> In g (groups sec) -> In s (g_sigs g) -> exists n, names (sig_signer s) n /\ no_dots n.
Proof.
  intros SO I IS. destruct (group_spec sec g I) as (k & _ & ES & _). rewrite ES in IS. apply filter_In in IS. destruct IS as [IS _]. apply filter_In in IS. destruct IS as [IS S].
  destruct (SO s IS) as [_ H]. unfold is_rrsig in S. unfold sig_signer. destruct (rr_data s) as [] eqn:E; try discriminate S. eapply H. reflexivity.
Qed.
Lemma auth_show sec g n T : section_ok sec -> In g (groups sec) -> name_ok n -> lname n = n ->
  auth_sigs verify keyTag toDS anchors (g_sigs g) (show n) (g_rrs g) T -> authenticated n (g_rrs g) T.
Proof.
  intros SO I O L (s & zsk & ksk & IS & SUB & TR & SG). destruct (group_sig sec g s SO I IS) as (m & NM & D). destruct (names_canonical _ _ NM) as (Em & Om & Lm & Dm). rewrite Em in SUB. rewrite Dm in TR.
  exists m, zsk, ksk. split; [apply sub_show; assumption|]. split; [apply trusted_show; assumption|exact SG].
Qed.
Lemma valid_show a T : message_ok a -> valid_s verify keyTag toDS hashName anchors a T -> validated verify keyTag toDS hashName anchors a T.
Proof.
  intros (SA & SN & SQ) [H1 H2]. split.
  - intros E. destruct (H1 E) as (q & HQ & rs & HR & DN). assert (IQ : In q (m_question a)) by (destruct (m_question a); [discriminate HQ|injection HQ as ->; left; reflexivity]).
    destruct (SQ q IQ) as (n & NM & D). destruct (names_canonical _ _ NM) as (En & On & Ln & _). exists q, n, rs. split; [exact HQ|]. split; [exact NM|]. rewrite En in HR, DN. split; [|exact DN].
    intros r IR. destruct (HR r IR) as (g & IG & RG & AU). destruct (group_rrset _ g r SN IG RG) as (IN & _ & RS). split; [exact IN|]. exists (g_rrs g). split; [exact RS|]. apply (auth_show _ g n T SN IG On Ln AU).
  - intros NE r IR NS. assert (S : is_rrsig r = false) by (destruct (is_rrsig r) eqn:X; [apply is_rrsig_iff in X; contradiction|reflexivity]).
    destruct (group_of _ r IR S) as (g & IG & RG). destruct (SA r IR) as [(n & NM & D) _]. exists (g_rrs g), n. split; [exact NM|]. split; [apply (group_rrset _ g r SA IG RG)|].
    destruct (names_canonical _ _ NM) as (En & On & Ln & _). specialize (H2 NE g IG). unfold group_post in H2. rewrite (proj1 (group_name _ g r n SA IG RG NM)) in H2. apply (auth_show _ g n T SA IG On Ln H2).
Qed.
Lemma insecure_show a T : message_ok a -> insecure_s verify keyTag toDS hashName anchors a T -> proven_unsigned verify keyTag toDS hashName anchors a T.
Proof.
  intros (SA & SN & SQ) [H1 H2]. split.
  - intros E. destruct (H1 E) as (q & HQ & CA). assert (IQ : In q (m_question a)) by (destruct (m_question a); [discriminate HQ|injection HQ as ->; left; reflexivity]).
    destruct (SQ q IQ) as (n & NM & D). exists q, n. split; [exact HQ|]. split; [exact NM|]. destruct (names_canonical _ _ NM) as (En & On & Ln & _). rewrite En in CA. apply (cut_show (show n) n T); auto. apply names_self; assumption.
  - intros NE. destruct (H2 NE) as (g & IG & GI). destruct (group_spec _ g IG) as (_ & _ & _ & r & RG). destruct (group_rrset _ g r SA IG RG) as (IR & NS & _).
    destruct (SA r IR) as [(n & NM & D) _]. exists r, n. split; [exact IR|]. split; [exact NS|]. split; [exact NM|]. destruct (names_canonical _ _ NM) as (En & On & Ln & _). destruct (group_name _ g r n SA IG RG NM) as [EF NF].
    destruct GI as [CA|(s & IS & SUB & IN)]; [apply (cut_show _ n T NF D CA)|]. destruct (group_sig _ g s SA IG IS) as (m & NMs & Dm). destruct (names_canonical _ _ NMs) as (Em & Om & Lm & Dbl). rewrite Em, EF in SUB. rewrite Dbl in IN.
    apply (insec_show m Om Lm Dm T n); [apply sub_show; assumption|exact IN].
Qed.
End NAMES.

(** ** Many programs at a time *)
Section SYSTEM.
Variable verify : rr -> rr -> list rr -> bool.
Variable keyTag : rr -> N.
Variable toDS : rr -> N -> option string.
Variable anchors : list anchor.
Notation trusted_s := (trusted_s verify keyTag toDS anchors).
Notation wp := (wp verify keyTag toDS anchors).

Definition store_ok (T : N) (s : store) : Prop := forall z,
  (forall ks, e_keys (getItem s z) = Some ks -> trusted_s (canonicalName z) (k_zsk ks) (k_ksk ks) T) /\
  (forall rs e, canonicalName z = "."%string -> e_ds (getItem s z) = Some (rs, e) -> incl rs (root_ds anchors)).
Lemma store_mono T T' s : T <= T' -> store_ok T s -> store_ok T' s.
Proof. intros L H z. destruct (H z) as [A B]. split; [|exact B]. intros ks E. apply (trusted_mono _ _ _ _ _ _ _ T T'); [exact L|apply A, E]. Qed.
Lemma getItem_cons k e s z : getItem ((k, e) :: s) z = if String.eqb k (canonicalName z) then e else getItem s z.
Proof. unfold getItem. cbn [lookup]. destruct (k =? canonicalName z)%string; reflexivity. Qed.
Lemma getItem_canon s a b : canonicalName a = canonicalName b -> getItem s a = getItem s b.
Proof. unfold getItem. intros ->. reflexivity. Qed.
Lemma put_ok T s t z keys : store_ok T s -> trusted_s (canonicalName z) (filter (has_flags 256) keys) (filter (has_flags 257) keys) T -> store_ok T (addDNSKEY s t z keys).
Proof.
  intros S H x. unfold addDNSKEY. rewrite getItem_cons. destruct (canonicalName z =? canonicalName x)%string eqn:E; [|apply S]. apply String.eqb_eq in E. cbn. split.
  - intros ks [= <-]. cbn. rewrite <- E. exact H.
  - intros rs e C. rewrite (getItem_canon s z x E). apply S, C.
Qed.
Lemma addDS_ok T s t a : store_ok T s -> In a anchors -> store_ok T (addDS s t (a_owner a) [anchor_ds a]).
Proof.
  intros S IA x. unfold addDS. rewrite getItem_cons. destruct (canonicalName (a_owner a) =? canonicalName x)%string eqn:E; [|apply S]. apply String.eqb_eq in E. cbn. rewrite (getItem_canon s _ x E). split.
  - apply S.
  - intros rs e C. destruct (S x) as [_ B]. destruct (e_ds (getItem s x)) as [[rs0 e0]|] eqn:D; intros [= <- <-]; intros d ID.
    + apply in_app_or in ID. destruct ID as [ID|[<-|[]]]; [apply (B rs0 e0 C eq_refl d ID)|]. apply in_map, filter_In. split; [exact IA|]. apply String.eqb_eq. congruence.
    + destruct ID as [<-|[]]. apply in_map, filter_In. split; [exact IA|]. apply String.eqb_eq. congruence.
Qed.
Lemma anchors_ok T t : store_ok T (setAnchors t anchors).
Proof.
  assert (G : forall l s, incl l anchors -> store_ok T s -> store_ok T (fold_left (fun s a => addDS s t (a_owner a) [anchor_ds a]) l s)).
  { induction l as [|a l IH]; intros s I S; [exact S|]. cbn [fold_left]. apply IH; [intros x X; apply I; right; exact X|]. apply addDS_ok; [exact S|apply I; left; reflexivity]. }
  apply G; [apply incl_refl|]. intros z. split; [intros ks E; discriminate E|intros rs e _ E; discriminate E].
Qed.
Lemma get_ok T s t z zsk ksk : store_ok T s -> getDNSKEY s t z = (zsk, ksk) -> (zsk = [] /\ ksk = []) \/ trusted_s (canonicalName z) zsk ksk T.
Proof.
  intros S. unfold getDNSKEY. destruct (e_keys (getItem s z)) as [ks|] eqn:E; [|intros [= <- <-]; auto]. destruct (k_expires ks <? t); intros [= <- <-]; auto. right. apply (S z). exact E.
Qed.
Lemma getDS_ok T s t z : store_ok T s -> canonicalName z = "."%string -> incl (getDS s t z) (root_ds anchors).
Proof.
  intros S C. unfold getDS. destruct (e_ds (getItem s z)) as [[rs e]|] eqn:E; [|intros x []]. destruct (e <? t); [intros x []|]. apply (proj2 (S z) rs e C E).
Qed.
Lemma Forall2_impl {A B} (P Q : A -> B -> Prop) l l' : (forall a b, P a b -> Q a b) -> Forall2 P l l' -> Forall2 Q l l'.
Proof. intros H. induction 1; constructor; auto. Qed.
Definition inv {R} (Qs : list (N -> R -> Prop)) (st : sys R) : Prop :=
  store_ok (s_time st) (s_store st) /\ Forall2 (fun Q p => exists T0, T0 <= s_time st /\ wp Q T0 p) Qs (s_threads st).
Lemma pstep_inv {R} W (Q : N -> R -> Prop) t s p s' p' T0 : store_ok t s -> T0 <= t -> wp Q T0 p -> pstep W t s p s' p' -> store_ok t s' /\ exists T1, T1 <= t /\ wp Q T1 p'.
Proof.
  intros S L0 W0 P. destruct P as [q k a _|k|z k|z ks t0 k|z k|l k l' PL]; cbn in W0.
  - split; [exact S|]. exists t. split; [lia|apply W0; exact L0].
  - split; [exact S|]. exists t. split; [lia|apply W0; exact L0].
  - split; [exact S|]. exists t. split; [lia|]. destruct (getDNSKEY s t z) as [zsk ksk] eqn:E. apply W0; [exact L0|]. apply (get_ok t s t z zsk ksk S E).
  - destruct W0 as [W1 W2]. split; [apply put_ok; [exact S|exact (trusted_mono _ _ _ _ _ _ _ _ _ L0 W1)]|]. exists t. split; [lia|apply W2; exact L0].
  - split; [exact S|]. exists t. split; [lia|]. apply W0; [exact L0|]. intros C. apply (getDS_ok t s t z S C).
  - split; [exact S|]. exists t. split; [lia|]. apply W0; assumption.
Qed.
Lemma step_inv {R} W (Qs : list (N -> R -> Prop)) st st' : step W st st' -> inv Qs st -> inv Qs st'.
Proof.
  intros H [S F]. destruct H as [t t' s ts L|t s ts1 p ts2 s' p' P]; cbn in *.
  - split; [exact (store_mono _ _ _ L S)|]. eapply Forall2_impl; [|exact F]. cbn. intros Q p (T0 & L0 & W0). exists T0. split; [lia|exact W0].
  - apply Forall2_app_inv_r in F. destruct F as (Q1 & Q2' & F1 & F2 & ->). inversion F2 as [|Q ? Q2 ? (T0 & L0 & W0) F3]; subst.
    destruct (pstep_inv W Q t s p s' p' T0 S L0 W0 P) as [G1 G2]. split; [exact G1|]. cbn. apply Forall2_app; [exact F1|]. constructor; [exact G2|exact F3].
Qed.
Lemma steps_inv {R} W (Qs : list (N -> R -> Prop)) st st' : steps W st st' -> inv Qs st -> inv Qs st'.
Proof. induction 1 as [s|s s1 s2 _ IH H]; [auto|]. intros I. apply (step_inv W Qs s1 s2 H), IH, I. Qed.
Lemma start_inv {R} (Qs : list (N -> R -> Prop)) t ps : Forall2 (fun Q p => forall T, wp Q T p) Qs ps -> inv Qs (Sys t (setAnchors t anchors) ps).
Proof. intros F. split; [apply anchors_ok|]. cbn. eapply Forall2_impl; [|exact F]. cbn. intros Q p W. exists t. split; [lia|apply W]. Qed.
Lemma Forall2_nth {A B} (P : A -> B -> Prop) l l' i y : Forall2 P l l' -> nth_error l' i = Some y -> exists x, nth_error l i = Some x /\ P x y.
Proof. intros F. revert i. induction F as [|a b l l' H _ IH]; intros [|i] E; try discriminate E; cbn in *; [injection E as <-; eauto|apply IH, E]. Qed.
(** What programs establish on their own, they establish together. *)
Lemma run_ok {R} W (Qs : list (N -> R -> Prop)) t ps st i p : Forall2 (fun Q p => forall T, wp Q T p) Qs ps -> steps W (Sys t (setAnchors t anchors) ps) st ->
  nth_error (s_threads st) i = Some p -> exists Q T0, nth_error Qs i = Some Q /\ T0 <= s_time st /\ wp Q T0 p.
Proof.
  intros F S E. destruct (steps_inv W Qs _ _ S (start_inv Qs t ps F)) as [_ F']. destruct (Forall2_nth _ _ _ _ _ F' E) as (Q & EQ & T0 & L & WP). exists Q, T0. auto.
Qed.
Lemma run_store {R} W (Qs : list (N -> R -> Prop)) t ps st : Forall2 (fun Q p => forall T, wp Q T p) Qs ps -> steps W (Sys t (setAnchors t anchors) ps) st -> store_ok (s_time st) (s_store st).
Proof. intros F S. apply (steps_inv W Qs _ _ S (start_inv Qs t ps F)). Qed.
End SYSTEM.
