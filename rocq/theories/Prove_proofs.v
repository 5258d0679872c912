(** Complete proofs are accepted. *)
From Verif Require Import Base Base_proofs Bytes Dns Name_model Name_spec Name_proofs Denial_model Denial_spec Denial_proofs Denial3_proofs Keystore_model Dnssec_model Dnssec_spec Dnssec_main Honest_spec Honest_main Prove_spec.
From Coq Require Import ZifyBool ZifyNat ZifyN.
Open Scope N_scope.

Section ZONE.
Variable z : zone.
Hypothesis Z : zone_ok z.

Lemma apex_first q : lname q = q -> suffix (z_apex z) q -> ~ name_lt q (z_apex z).
Proof.
  intros Ql Sq L. assert (B : below (z_apex z) q) by (destruct (owner_ok z Z _ (apex_owner z Z)) as (_ & AL & _); exact (proj1 (suffix_below _ _ AL Ql) Sq)). apply below_lt in B. destruct B as [B|B].
  - unfold same_name in B. unfold name_lt in L. rewrite B in L. exact (labels_lt_irrefl _ L).
  - exact (name_lt_irrefl _ (name_lt_trans _ _ _ L B)).
Qed.
Lemma names_canonical s n : names s n -> canonicalName s = show n.
Proof. intros (n' & Ok & -> & <-). apply canonicalName_show, Ok. Qed.
Lemma names_ok s n : names s n -> name_ok n /\ lname n = n.
Proof. intros (n' & Ok & _ & <-). split; [apply lname_ok, Ok|apply lname_idem]. Qed.

(** ** A record that spans a name covers it. *)
Lemma spans_covers r q : authentic z r -> name_ok q -> lname q = q -> suffix (z_apex z) q -> spans z r q -> nsecCovers r (show q) = true.
Proof.
  intros A Qok Ql Sq (o & nx & No & Nn & L1 & L2). unfold nsecCovers. cbv zeta. rewrite (names_canonical _ _ No), (names_canonical _ _ Nn), canonicalName_show, Ql by exact Qok.
  destruct (names_ok _ _ No) as [Ook Ol]. destruct (names_ok _ _ Nn) as [Nok Nl].
  assert (C1 : is_lt (canonicalNameCmp (show o) (show q)) = true) by (apply is_lt_iff, show_cmp_lt; assumption). rewrite C1.
  destruct (String.eqb_spec (show q) (show o)) as [E|_]; [exfalso; apply show_inj in E; [|assumption|assumption]; subst o; exact (name_lt_irrefl _ L1)|].
  destruct (is_lt (canonicalNameCmp (show o) (show nx))) eqn:W; [|reflexivity]. cbn [andb].
  destruct L2 as [L2| ->]; [apply is_lt_iff, show_cmp_lt; assumption|]. exfalso. apply is_lt_iff, show_cmp_lt in W; [|assumption|assumption].
  destruct (authentic_owner z r A) as (o2 & ts & D & E2 & _). rewrite (names_canonical _ _ No) in E2. apply show_inj in E2; [|exact Ook|apply (owner_ok z Z o2), (data_owner z o2 ts D)]. subst o2.
  destruct (owner_ok z Z o (data_owner z o ts D)) as (_ & _ & So). exact (apex_first o Ol So W).
Qed.
Lemma lacks_iff ts t : ~ In t ts -> ~ In 5 ts -> lacks ts t = true.
Proof.
  intros A B. unfold lacks, contains. apply andb_true_iff. split; apply negb_true_iff, not_true_iff_false; intros H; apply existsb_exists in H; destruct H as (x & I & E);
    apply N.eqb_eq in E; subst x; contradiction.
Qed.
Lemma owner_lacks r n t : authentic z r -> name_ok n -> canonicalName (n_owner r) = show n -> lacking z n t -> lacks (n_types r) t = true.
Proof.
  intros A Nok E [L1 L2]. destruct (authentic_owner z r A) as (o & ts & D & E2 & T). rewrite E in E2. apply show_inj in E2; [|exact Nok|apply (owner_ok z Z o), (data_owner z o ts D)]. subst o.
  apply lacks_iff; intros I; apply T in I; [apply L1|apply L2]; exists ts; auto.
Qed.
(** Every covering record leads to the closest encloser. *)
Lemma covers_encloser r q e : authentic z r -> name_ok q -> lname q = q -> suffix (z_apex z) q -> closest z q e -> nsecCovers r (show q) = true ->
  nsecClosestEncloser (show q) r = show e /\ ~ is_owner z q.
Proof.
  intros A Qok Ql Sq CE C. destruct (covers_gap z Z r q q A Qok Ql Sq C) as (o & nx & G & Eo & En). destruct (gap_encloser z Z q o nx G Ql Sq) as [K CE'].
  rewrite (encloser_show z Z r q o nx); try assumption; [|apply G|apply G]. rewrite (closest_unique z q e _ CE CE'). split; [reflexivity|apply G].
Qed.
Lemma covers_first rs q r : In r rs -> nsecCovers r q = true -> exists r', find (fun n => nsecCovers n q) rs = Some r' /\ In r' rs /\ nsecCovers r' q = true.
Proof.
  intros I C. destruct (find (fun n => nsecCovers n q) rs) as [r'|] eqn:F; [|exfalso; pose proof (find_none _ _ F r I) as X; cbv beta in X; congruence].
  exists r'. split; [reflexivity|]. apply find_some in F. exact F.
Qed.
Lemma wildcard_in rs w r : (forall x, In x rs -> canonicalName (n_owner x) <> w) -> In r rs -> nsecCovers r w = true -> wildcard_covered rs w = true.
Proof.
  intros N I C. induction rs as [|x rs IH]; [contradiction|]. cbn [wildcard_covered]. destruct (String.eqb_spec (canonicalName (n_owner x)) w) as [E|_]; [exfalso; exact (N x (or_introl eq_refl) E)|].
  destruct (nsecCovers x w) eqn:X; [reflexivity|]. destruct I as [->|I]; [congruence|]. apply IH; [|exact I]. intros y Y. apply N. right. exact Y.
Qed.

(** The wildcard of the root is spelt with two dots, and sorts right after the root. *)
Lemma root_wild_labels : canonicalLabels "*.." = [[42]; []].
Proof. reflexivity. Qed.
Lemma root_wild_lt n : name_ok n -> n <> [] -> canonicalNameCmp "*.." (show n) = Lt.
Proof.
  intros Ok NE. unfold canonicalNameCmp. rewrite root_wild_labels, canonicalLabels_show by exact Ok. cbn [rev app].
  destruct (rev (lname n)) as [|l m] eqn:E; [exfalso; apply NE; apply (f_equal (@length _)) in E; rewrite rev_length in E; unfold lname in E; rewrite map_length in E; destruct n; [reflexivity|discriminate E]|].
  assert (I : In l (lname n)) by (apply in_rev; rewrite E; left; reflexivity). pose proof (lname_ok n Ok) as Ok2. unfold name_ok in Ok2. rewrite Forall_forall in Ok2. destruct (Ok2 l I) as [NL _].
  cbn [labels_compare]. destruct l; [contradiction|reflexivity].
Qed.
Lemma root_wild_covers r : authentic z r -> names (n_owner r) [] -> nsecCovers r "*.." = true.
Proof.
  intros A No. destruct A as (o & nx & ts & o' & nx' & D & NX & _ & _ & _ & On & Ln & En & _). unfold nsecCovers. cbv zeta. rewrite (names_canonical _ _ No), En, canonicalName_show, Ln by exact On.
  change (canonicalName "*..") with "*.."%string. change (show []) with "."%string. change (String.eqb "*.." ".") with false. cbv iota.
  change (is_lt (canonicalNameCmp "." "*..")) with true. destruct (owner_ok z Z nx NX) as (Nok & _ & _). destruct nx as [|l nx]; [reflexivity|].
  rewrite root_wild_lt by (try exact Nok; discriminate). cbn [is_lt andb orb]. destruct (is_lt _); reflexivity.
Qed.
Lemma root_wild_none r : authentic z r -> canonicalName (n_owner r) <> "*.."%string.
Proof.
  intros A E. destruct (authentic_owner z r A) as (o & ts & D & E2 & _). rewrite E in E2. destruct (owner_ok z Z o (data_owner z o ts D)) as (Ook & _ & _).
  pose proof (canonicalLabels_show o Ook) as X. rewrite <- E2, root_wild_labels in X. pose proof (lname_ok o Ook) as Y. rewrite <- X in Y. inversion Y as [|? ? _ Y2]; subst. inversion Y2 as [|? ? [Y3 _] _]; subst. contradiction.
Qed.

Lemma closest_ok q e : name_ok q -> lname q = q -> closest z q e -> name_ok e /\ lname e = e /\ suffix (z_apex z) e.
Proof. intros Qok Ql C. pose proof C as (_ & S & _). split; [apply (name_ok_suffix e q S Qok)|]. split; [apply (lname_suffix e q S Ql)|apply (closest_apex z q e C)]. Qed.

Lemma nxdomain_complete rs q' q : Forall (authentic z) rs -> name_ok q' -> lname q' = q -> suffix (z_apex z) q -> no_name z rs q -> nsecProvesNXDOMAIN rs (show q') = true.
Proof.
  intros F Oq Lq Sq (e & CE & (r1 & I1 & S1) & (r2 & I2 & R2 & S2)). unfold nsecProvesNXDOMAIN. cbv zeta. rewrite canonicalName_show, Lq by exact Oq.
  assert (Qok : name_ok q) by (rewrite <- Lq; apply lname_ok, Oq). assert (Ql : lname q = q) by (rewrite <- Lq; apply lname_idem). pose proof F as F'. rewrite Forall_forall in F'.
  destruct (covers_first rs (show q) r1 I1 (spans_covers r1 q (F' r1 I1) Qok Ql Sq S1)) as (r & -> & I & C). destruct (covers_encloser r q e (F' r I) Qok Ql Sq CE C) as [-> _].
  destruct (closest_ok q e Qok Ql CE) as (Eok & El & Se). assert (X : e = [] \/ e <> []) by (destruct e; [left; reflexivity|right; discriminate]). destruct X as [->|NE].
  - change (canonicalName (wild (show []))) with "*.."%string. apply (wildcard_in rs _ r2); [|exact I2|].
    + intros x Ix. apply root_wild_none, F', Ix.
    + apply root_wild_covers; [apply F', I2|apply R2; reflexivity].
  - rewrite wild_show, El by assumption. specialize (S2 NE).
    assert (Sw : suffix (z_apex z) (star e)) by (apply (suffix_trans _ e); [exact Se|exists [[42]]; reflexivity]).
    pose proof (spans_covers r2 (star e) (F' r2 I2) (star_ok e Eok) (star_lname e El) Sw S2) as C2. apply (wildcard_in rs _ r2); [|exact I2|exact C2].
    destruct (covers_gap z Z r2 (star e) (star e) (F' r2 I2) (star_ok e Eok) (star_lname e El) Sw C2) as (o & nx & G & _).
    intros x Ix Ex. destruct (authentic_owner z x (F' x Ix)) as (o2 & ts & D & E2 & _). rewrite Ex in E2. apply show_inj in E2; [|apply star_ok, Eok|apply (owner_ok z Z o2), (data_owner z o2 ts D)]. subst o2.
    destruct G as (_ & _ & _ & _ & _ & NO). exact (NO (data_owner z _ ts D)).
Qed.
Lemma wildcard_nodata_complete rs cs q e t r1 r2 : Forall (authentic z) rs -> Forall (authentic z) cs -> name_ok q -> lname q = q -> suffix (z_apex z) q -> closest z q e -> e <> [] ->
  In r1 cs -> nsecCovers r1 (show q) = true -> In r2 rs -> names (n_owner r2) (star e) -> lacking z (star e) t -> wildcard_nodata rs cs (show q) t = true.
Proof.
  intros F Fc Qok Ql Sq CE NE I1 C1 I2 N2 L. destruct (closest_ok q e Qok Ql CE) as (Eok & El & Se). induction cs as [|c cs IH]; [contradiction|]. cbn [wildcard_nodata]. inversion Fc as [|? ? A Fc']; subst.
  destruct (nsecCovers c (show q)) eqn:C.
  - destruct (covers_encloser c q e A Qok Ql Sq CE C) as [-> _]. rewrite wild_show, El by assumption. destruct (find _ rs) as [w|] eqn:W.
    + apply find_some in W. destruct W as [Iw W]. apply String.eqb_eq in W. rewrite Forall_forall in F. apply (owner_lacks w (star e) t (F w Iw) (star_ok e Eok) W L).
    + exfalso. pose proof (find_none _ _ W r2 I2) as X. cbv beta in X. rewrite (names_canonical _ _ N2), String.eqb_refl in X. discriminate X.
  - destruct I1 as [->|I1]; [congruence|]. apply IH; assumption.
Qed.
Lemma nodata_complete rs q' q t : Forall (authentic z) rs -> name_ok q' -> lname q' = q -> suffix (z_apex z) q -> no_data z rs q t -> nsecProvesNODATA rs (show q') t = true.
Proof.
  intros F Oq Lq Sq H. unfold nsecProvesNODATA. cbv zeta. rewrite canonicalName_show, Lq by exact Oq.
  assert (Qok : name_ok q) by (rewrite <- Lq; apply lname_ok, Oq). assert (Ql : lname q = q) by (rewrite <- Lq; apply lname_idem). pose proof F as F'. rewrite Forall_forall in F'.
  destruct H as [(r & I & N & L)|(e & CE & NE & (r1 & I1 & S1) & (r2 & I2 & N2) & L)].
  - destruct (find _ rs) as [w|] eqn:W.
    + apply find_some in W. destruct W as [Iw W]. apply String.eqb_eq in W. apply (owner_lacks w q t (F' w Iw) Qok W L).
    + exfalso. pose proof (find_none _ _ W r I) as X. cbv beta in X. rewrite (names_canonical _ _ N), String.eqb_refl in X. discriminate X.
  - pose proof (spans_covers r1 q (F' r1 I1) Qok Ql Sq S1) as C1. destruct (find _ rs) as [w|] eqn:W.
    + exfalso. apply find_some in W. destruct W as [Iw W]. apply String.eqb_eq in W. destruct (covers_encloser r1 q e (F' r1 I1) Qok Ql Sq CE C1) as [_ NO]. apply NO.
      destruct (authentic_owner z w (F' w Iw)) as (o2 & ts & D & E2 & _). rewrite W in E2. apply show_inj in E2; [|exact Qok|apply (owner_ok z Z o2), (data_owner z o2 ts D)]. subst o2. exact (data_owner z _ ts D).
    + apply (wildcard_nodata_complete rs rs q e t r1 r2); assumption.
Qed.
Lemma denial_complete rs q' q t rcode : Forall (authentic z) rs -> name_ok q' -> lname q' = q -> suffix (z_apex z) q -> nsec_proof z rs q t rcode -> nsecProvesDenial rs (show q') t rcode = true.
Proof.
  intros F Oq Lq Sq H. unfold nsecProvesDenial. destruct H as [[-> H]|[-> H]].
  - pose proof (nxdomain_complete rs q' q F Oq Lq Sq H) as X. destruct rs as [|r rs]; [destruct H as (e & _ & (r & [] & _) & _)|]. exact X.
  - pose proof (nodata_complete rs q' q t F Oq Lq Sq H) as X. destruct rs as [|r rs]; [destruct H as [(r & [] & _)|(e & _ & _ & (r & [] & _) & _)]|]. exact X.
Qed.
End ZONE.

Section CHAIN.
Variable hashName : string -> N -> N -> string -> string.
Variable z : zone.
Variable c : chain3.
Hypothesis Z : zone_ok z.
Hypothesis HC : chain_ok z c.
Hypothesis HH : hash_ok hashName c.
Hypothesis NR : z_apex z <> [].
Notation hs := (hash hashName c).
Notation auth := (authentic3 hashName z c).
Notation owned3 := (owned3 hashName z c).
Notation spans3 := (spans3 hashName z c).
Notation provable := (provable c).

Lemma owned_matches r n : auth r -> name_ok n -> lname n = n -> suffix (z_apex z) n -> owned3 r n -> nsec3_match hashName r (show n) = true.
Proof.
  intros (? & ? & ? & ? & _ & _ & E1 & E2 & E3 & _) Nok Nl Sn (hl & apex' & Ok & La & Eo & Eh). unfold nsec3_match. cbv zeta. rewrite Eo, owner_split_show by exact Ok.
  destruct apex' as [|l a] eqn:X; [exfalso; apply NR; rewrite <- La; reflexivity|]. rewrite <- X in *. inversion Ok as [|? ? _ Aok]; subst. apply andb_true_iff. split.
  - apply sub_show; [exact Aok|exact Nok|]. rewrite La, Nl. exact Sn.
  - apply String.eqb_eq. rewrite Eh. destruct HH as [_ Plain]. rewrite Plain, E1, E2, E3. reflexivity.
Qed.
Lemma spans_covers3 r m : auth r -> name_ok m -> lname m = m -> suffix (z_apex z) m -> spans3 r m -> nsec3_cover hashName r (show m) = true.
Proof.
  intros (? & ? & ? & ? & _ & _ & E1 & E2 & E3 & _) Mok Ml Sm (n & (hl & apex' & Ok & La & Eo & Eh) & B). unfold nsec3_cover. cbv zeta. rewrite Eo, owner_split_show by exact Ok.
  destruct apex' as [|l a] eqn:X; [exfalso; apply NR; rewrite <- La; reflexivity|]. rewrite <- X in *. inversion Ok as [|? ? _ Aok]; subst.
  assert (S : isSubDomain (show (uname (l :: a))) (upper (show m)) = true) by (apply sub_show; [exact Aok|exact Mok|]; rewrite La, Ml; exact Sm). rewrite S.
  rewrite Eh. destruct HH as [_ Plain]. rewrite Plain, E1, E2, E3. fold (hs m). unfold between in B. destruct (String.eqb_spec (hs n) (h_next r)) as [E|NE].
  - rewrite E in *. rewrite str_irrefl in B. cbn [andb]. destruct (String.eqb_spec (hs m) (h_next r)); [contradiction|reflexivity].
  - cbn [andb]. destruct (str_lt (hs n) (h_next r)) eqn:L.
    + rewrite (str_asym _ _ L). destruct B as [B1 B2]. rewrite (str_asym _ _ B1). exact B2.
    + destruct (str_total (hs n) (h_next r)) as [G|[G|G]]; [congruence|contradiction|]. rewrite G. apply orb_true_iff. exact B.
Qed.
Lemma match_any rs r n : Forall auth rs -> name_ok n -> lname n = n -> suffix (z_apex z) n -> In r rs -> owned3 r n -> nsec3MatchAny hashName rs (show n) = true.
Proof. intros F Nok Nl Sn I O. apply existsb_exists. exists r. split; [exact I|]. rewrite Forall_forall in F. apply owned_matches; auto. Qed.
Lemma cover_any rs r n : Forall auth rs -> name_ok n -> lname n = n -> suffix (z_apex z) n -> In r rs -> spans3 r n -> nsec3CoverAny hashName rs (show n) = true.
Proof. intros F Nok Nl Sn I O. apply existsb_exists. exists r. split; [exact I|]. rewrite Forall_forall in F. apply spans_covers3; auto. Qed.
Lemma optout_any rs r n : Forall auth rs -> name_ok n -> lname n = n -> suffix (z_apex z) n -> In r rs -> N.testbit (h_flags r) 0 = true -> spans3 r n -> nsec3OptOutCovers hashName rs (show n) = true.
Proof. intros F Nok Nl Sn I B O. apply existsb_exists. exists r. split; [exact I|]. rewrite B. rewrite Forall_forall in F. apply spans_covers3; auto. Qed.
Lemma unmatched rs m : Forall auth rs -> name_ok m -> lname m = m -> ~ In m (c_names c) -> nsec3MatchAny hashName rs (show m) = false.
Proof.
  intros F Mok Ml NI. apply not_true_iff_false. intros H. destruct (match_any_sound hashName z c Z HC HH rs m F Mok Ml H) as (r & nx & _ & (I & _) & _). contradiction.
Qed.
Lemma find_unmatched rs m : Forall auth rs -> name_ok m -> lname m = m -> ~ In m (c_names c) -> find (fun r => nsec3_match hashName r (show m)) rs = None.
Proof.
  intros F Mok Ml NI. destruct (find _ rs) as [r|] eqn:W; [|reflexivity]. exfalso. apply find_some in W. destruct W as [I W]. pose proof (unmatched rs m F Mok Ml NI) as X.
  rewrite (match_none hashName rs (show m) r X I) in W. discriminate W.
Qed.
Lemma owned_find rs m r t : Forall auth rs -> name_ok m -> lname m = m -> suffix (z_apex z) m -> In r rs -> owned3 r m -> lacking z m t ->
  exists w, find (fun r => nsec3_match hashName r (show m)) rs = Some w /\ lacks (h_types w) t = true.
Proof.
  intros F Mok Ml Sm I O [L1 L2]. rewrite Forall_forall in F. pose proof (owned_matches r m (F r I) Mok Ml Sm O) as M. destruct (find _ rs) as [w|] eqn:W.
  - exists w. split; [reflexivity|]. apply find_some in W. destruct W as [Iw W]. destruct (match_sound hashName z c Z HC HH w m (F w Iw) Mok Ml W) as (_ & nx & _ & _ & _ & T & _).
    apply lacks_iff; intros X; apply T in X; contradiction.
  - exfalso. pose proof (find_none _ _ W r I) as X. cbv beta in X. congruence.
Qed.

(** ** The closest encloser is found. *)
Lemma encloser_from_complete rs q j : name_ok q -> lname q = q -> nsec3MatchAny hashName rs (show (skipn (length q - j) q)) = true ->
  forall k, (j < k <= length q)%nat -> (forall i, (j < i < k)%nat -> nsec3MatchAny hashName rs (show (skipn (length q - i) q)) = false) ->
  encloser_from hashName rs (show q) k = Some (show (skipn (length q - j) q), show (skipn (length q - S j) q)).
Proof.
  intros Qok Ql M. induction k as [|k IH]; intros K H; [lia|]. cbn [encloser_from]. rewrite !lastNLabels_show by assumption. destruct (Nat.eq_dec j k) as [->|NE]; [rewrite M; reflexivity|].
  rewrite (H k) by lia. apply IH; [lia|]. intros i I. apply H. lia.
Qed.
Lemma encloser_complete rs q q' l e r : Forall auth rs -> name_ok q' -> lname q' = q -> provable q l e -> In r rs -> owned3 r e ->
  nsec3ClosestEncloser hashName rs (show q') = Some (show e, show (l :: e)).
Proof.
  intros F Oq Lq (Ie & Sl & Max) I O. assert (Qok : name_ok q) by (rewrite <- Lq; apply lname_ok, Oq). assert (Ql : lname q = q) by (rewrite <- Lq; apply lname_idem).
  unfold nsec3ClosestEncloser. cbv zeta. rewrite canonicalName_show, Lq by exact Oq. unfold countLabel. rewrite splitDomainName_show, map_length by exact Qok.
  destruct (chain_name z c Z HC e Ie) as (Eok & El & Se). assert (Sq : suffix e q) by (apply (suffix_trans _ (l :: e)); [exists [l]; reflexivity|exact Sl]).
  pose proof (proj1 (suffix_skipn _ _) Sq) as [L1 E1]. pose proof (proj1 (suffix_skipn _ _) Sl) as [L2 E2]. cbn [length] in L2, E2.
  assert (G : encloser_from hashName rs (show q) (length q) = Some (show (skipn (length q - length e) q), show (skipn (length q - S (length e)) q))); [|rewrite <- E1, <- E2 in G; exact G].
  apply encloser_from_complete; [exact Qok|exact Ql| | |].
  - rewrite <- E1. apply (match_any rs r e); assumption.
  - lia.
  - intros i Hi. apply unmatched; [exact F|apply name_ok_skipn, Qok|apply lname_skipn, Ql|]. intros X. assert (S : suffix (skipn (length q - i) q) q) by (exists (firstn (length q - i) q); symmetry; apply firstn_skipn).
    pose proof (Max _ X S) as Y. rewrite skipn_length in Y. lia.
Qed.
Lemma provable_ok q l e : name_ok q -> lname q = q -> provable q l e -> (name_ok e /\ lname e = e /\ suffix (z_apex z) e /\ e <> []) /\ (name_ok (l :: e) /\ lname (l :: e) = l :: e /\ suffix (z_apex z) (l :: e)) /\
  suffix (z_apex z) (star e) /\ ~ In q (c_names c) /\ suffix (z_apex z) q.
Proof.
  intros Qok Ql (Ie & Sl & Max). destruct (chain_name z c Z HC e Ie) as (Eok & El & Se). assert (Sle : suffix (z_apex z) (l :: e)) by (apply (suffix_trans _ e); [exact Se|exists [l]; reflexivity]).
  split; [|split; [|split; [|split]]].
  - repeat (split; [assumption|]). intros ->. destruct Se as (p & P). symmetry in P. apply app_eq_nil in P. destruct P as [_ P]. exact (NR P).
  - split; [apply (name_ok_suffix _ q Sl Qok)|]. split; [apply (lname_suffix _ q Sl Ql)|exact Sle].
  - apply (suffix_trans _ e); [exact Se|]. exists [[42]]. reflexivity.
  - intros X. pose proof (Max q X (suffix_refl q)) as Y. apply suffix_skipn in Sl. cbn [length] in Sl. lia.
  - apply (suffix_trans _ (l :: e)); assumption.
Qed.

Lemma nxdomain3_complete rs q' q : Forall auth rs -> name_ok q' -> lname q' = q -> no_name3 hashName z c rs q -> nsec3ProvesNXDOMAIN hashName rs (show q') = true.
Proof.
  intros F Oq Lq (l & e & P & (r & I & O) & H). assert (Qok : name_ok q) by (rewrite <- Lq; apply lname_ok, Oq). assert (Ql : lname q = q) by (rewrite <- Lq; apply lname_idem).
  destruct (provable_ok q l e Qok Ql P) as ((Eok & El & Se & NE) & (Lok & Ll & Sl) & Sw & _). unfold nsec3ProvesNXDOMAIN. rewrite (encloser_complete rs q q' l e r F Oq Lq P I O). rewrite wild_e by exact NE.
  destruct H as [[(r1 & I1 & S1) (r2 & I2 & S2)]|(r1 & I1 & B & S1)].
  - rewrite (cover_any rs r1 (l :: e)) by assumption. pose proof (star_ok e Eok). pose proof (star_lname e El). rewrite (cover_any rs r2 (star e)) by assumption. reflexivity.
  - rewrite (cover_any rs r1 (l :: e)) by assumption. rewrite (optout_any rs r1 (l :: e)) by assumption. cbn [negb]. destruct (nsec3CoverAny _ _ _); reflexivity.
Qed.
Lemma nodata3_complete rs q' q t : Forall auth rs -> name_ok q' -> lname q' = q -> suffix (z_apex z) q -> no_data3 hashName z c rs q t -> nsec3ProvesNODATA hashName rs (show q') t = true.
Proof.
  intros F Oq Lq Sq H. assert (Qok : name_ok q) by (rewrite <- Lq; apply lname_ok, Oq). assert (Ql : lname q = q) by (rewrite <- Lq; apply lname_idem).
  unfold nsec3ProvesNODATA. cbv zeta. rewrite canonicalName_show, Lq by exact Oq. destruct H as [(r & I & O & L)|[(-> & NI & r & I & B & S)|(l & e & P & (r & I & O) & (r1 & I1 & S1) & (r2 & I2 & O2) & L)]].
  - destruct (owned_find rs q r t F Qok Ql Sq I O L) as (w & -> & H). exact H.
  - rewrite find_unmatched by assumption. rewrite (optout_any rs r q) by assumption. reflexivity.
  - destruct (provable_ok q l e Qok Ql P) as ((Eok & El & Se & NE) & (Lok & Ll & Sl) & Sw & NI & _). rewrite find_unmatched by assumption.
    destruct ((t =? TypeDS) && nsec3OptOutCovers hashName rs (show q)); [reflexivity|]. rewrite (encloser_complete rs q q l e r F Qok Ql P I O). rewrite wild_e by exact NE.
    rewrite (cover_any rs r1 (l :: e)) by assumption. destruct (owned_find rs (star e) r2 t F (star_ok e Eok) (star_lname e El) Sw I2 O2 L) as (w & -> & H). exact H.
Qed.
Lemma denial3_complete rs q' q t rcode : Forall auth rs -> name_ok q' -> lname q' = q -> suffix (z_apex z) q -> nsec3_proof hashName z c rs q t rcode -> nsec3ProvesDenial hashName rs (show q') t rcode = true.
Proof.
  intros F Oq Lq Sq H. unfold nsec3ProvesDenial. destruct H as [[-> H]|[-> H]].
  - pose proof (nxdomain3_complete rs q' q F Oq Lq H) as X. destruct rs as [|r rs]; [destruct H as (l & e & _ & (r & [] & _) & _)|]. exact X.
  - pose proof (nodata3_complete rs q' q t F Oq Lq Sq H) as X. destruct rs as [|r rs]; [destruct H as [(r & [] & _)|[(_ & _ & r & [] & _)|(l & e & _ & (r & [] & _) & _)]]|]. exact X.
Qed.
End CHAIN.

(** ** The order of the records does not matter. *)
Lemma proof_incl z rs rs' q t rcode : (forall r, In r rs -> In r rs') -> nsec_proof z rs q t rcode -> nsec_proof z rs' q t rcode.
Proof.
  intros H [[E (e & A & (r1 & I1 & S1) & (r2 & I2 & S2))]|[E [(r & I & X)|(e & A & B & (r1 & I1 & S1) & (r2 & I2 & S2) & L)]]].
  - left. split; [exact E|]. exists e. split; [exact A|]. split; [exists r1|exists r2]; auto.
  - right. split; [exact E|]. left. exists r. auto.
  - right. split; [exact E|]. right. exists e. split; [exact A|]. split; [exact B|]. split; [exists r1; auto|]. split; [exists r2; auto|exact L].
Qed.
Lemma proof_incl3 hashName z c rs rs' q t rcode : (forall r, In r rs -> In r rs') -> nsec3_proof hashName z c rs q t rcode -> nsec3_proof hashName z c rs' q t rcode.
Proof.
  intros H [[E (l & e & A & (r & I & O) & X)]|[E [(r & I & X)|[(ET & NI & r & I & X)|(l & e & A & (r & I & O) & (r1 & I1 & S1) & (r2 & I2 & S2) & L)]]]].
  - left. split; [exact E|]. exists l, e. split; [exact A|]. split; [exists r; auto|]. destruct X as [[(r1 & I1 & S1) (r2 & I2 & S2)]|(r1 & I1 & S1)]; [left; split; [exists r1|exists r2]; auto|right; exists r1; auto].
  - right. split; [exact E|]. left. exists r. auto.
  - right. split; [exact E|]. right. left. split; [exact ET|]. split; [exact NI|]. exists r. auto.
  - right. split; [exact E|]. right. right. exists l, e. split; [exact A|]. split; [exists r; auto|]. split; [exists r1; auto|]. split; [exists r2; auto|exact L].
Qed.
Lemma perm_in {A B} (f : A -> list B) xs ys x : Permutation xs ys -> In x (flat_map f ys) -> In x (flat_map f xs).
Proof. intros P H. apply in_flat_map in H. destruct H as (y & I & J). apply in_flat_map. exists y. split; [|exact J]. apply (Permutation_in _ (Permutation_sym P) I). Qed.
Lemma perm_forall {A B} (f : A -> list B) (Q : B -> Prop) xs ys : Permutation xs ys -> Forall Q (flat_map f ys) -> Forall Q (flat_map f xs).
Proof. rewrite !Forall_forall. intros P F x I. apply F. apply (perm_in f ys xs); [apply Permutation_sym, P|exact I]. Qed.
Lemma proven_any_order hashName z c section n t rcode : name_ok n -> lname n = n -> proven hashName z c section n t rcode -> forall rs, Permutation rs (filter denial section) ->
  nsecProvesDenial (flat_map as_nsec rs) (show n) t rcode = true \/ nsec3ProvesDenial hashName (flat_map as_nsec3 rs) (show n) t rcode = true.
Proof.
  intros Nok Nl (Z & S & H) rs P. cbv zeta in H. destruct H as [[F H]|(NR & HC & HH & F & H)].
  - left. apply (denial_complete z Z) with (q := n); try assumption; [apply (perm_forall _ _ _ _ P F)|]. revert H. apply proof_incl. intros r. apply (perm_in _ _ _ _ P).
  - right. apply (denial3_complete hashName z c Z HC HH NR) with (q := n); try assumption; [apply (perm_forall _ _ _ _ P F)|]. revert H. apply proof_incl3. intros r. apply (perm_in _ _ _ _ P).
Qed.
Lemma denial_of_signed verify keyTag hashName t0 T tr secure a z c : denial_of verify keyTag hashName t0 T tr secure a z c -> signed_denial verify keyTag hashName t0 T tr secure a.
Proof.
  intros (q & n & H & Nn & R & A & S & D & P). exists q, n. repeat (split; [assumption|]). destruct (names_ok _ _ Nn) as [Nok Nl]. apply (proven_any_order hashName z c); assumption.
Qed.
Lemma denials_accepted verify keyTag toDS hashName anchors W t0 T tr secure : faithful verify keyTag toDS anchors W t0 T tr secure -> T <= t0 + 4294967295 ->
  forall logOnly qs st i q out, steps W (start anchors t0 (map (resolve verify keyTag toDS hashName logOnly) qs)) st -> s_time st <= T -> nth_error qs i = Some q ->
  (forall r, W (upstream_query q) r -> exists a z c, r = Ans a /\ denial_of verify keyTag hashName t0 T tr secure a z c) ->
  nth_error (s_threads st) i = Some (Ret out) ->
  exists qu a, head (m_question q) = Some qu /\ W (upstream_query q) (Ans a) /\ out = Ans (stripDNSSEC (set_ad true a) (set_do q) (had_edns0 q) (q_type qu)).
Proof.
  intros F HT logOnly qs st i q out St Tm Q D. apply (signed_accepted verify keyTag toDS hashName anchors W t0 T tr secure F HT logOnly qs st i q out St Tm Q).
  intros r Wr. destruct (D r Wr) as (a & z & c & -> & X). exists a. split; [reflexivity|]. right. apply (denial_of_signed _ _ _ _ _ _ _ _ z c X).
Qed.
