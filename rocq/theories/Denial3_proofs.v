(** Soundness of NSEC3 denial. *)
From Verif Require Import Base Base_proofs Bytes Dns Name_model Name_spec Name_proofs Denial_model Denial_spec Denial_proofs.
From Coq Require Import ZifyBool ZifyNat ZifyN.
Open Scope N_scope.

(** ** Upper case *)
Definition uname (n : name) : name := map (map uc) n.
Lemma show_byte_upper : forall b, b < 256 -> (upper (show_byte b) =? show_byte (uc b))%string = true.
Proof. apply all_bytes. vm_compute. reflexivity. Qed.
Lemma upper_app a b : upper (a ++ b) = (upper a ++ upper b)%string.
Proof. induction a as [|c a IH]; [reflexivity|]. cbn [append upper]. rewrite IH. reflexivity. Qed.
Lemma show_label_upper l : Forall (fun b => b < 256) l -> upper (show_label l) = show_label (map uc l).
Proof.
  induction 1 as [|b l B _ IH]; [reflexivity|]. cbn [show_label map]. rewrite upper_app, IH. f_equal. apply String.eqb_eq, show_byte_upper, B.
Qed.
Lemma upper_cons c s : upper (String c s) = String (upper_ascii c) (upper s).
Proof. reflexivity. Qed.
Lemma show_upper n : name_ok n -> upper (show n) = show (uname n).
Proof.
  intros H. unfold show. destruct n as [|l n]; [reflexivity|]. cbn [uname map]. change (map uc l :: map (map uc) n) with (uname (l :: n)).
  generalize (l :: n) H. clear. intros n H. induction H as [|l n [_ L] _ IH]; [reflexivity|]. cbn [show_labels uname map]. fold (uname n).
  rewrite upper_app, show_label_upper by exact L. rewrite upper_cons. rewrite IH. reflexivity.
Qed.
Lemma uc_lt b : b < 256 -> uc b < 256.
Proof. unfold uc. intros H. destruct ((97 <=? b) && (b <=? 122)) eqn:E; lia. Qed.
Lemma lc_uc b : lc (uc b) = lc b.
Proof.
  unfold uc, lc. destruct ((97 <=? b) && (b <=? 122)) eqn:E; [|reflexivity]. replace ((65 <=? b - 32) && (b - 32 <=? 90)) with true by lia.
  replace ((65 <=? b) && (b <=? 90)) with false by lia. lia.
Qed.
Lemma uname_ok n : name_ok n -> name_ok (uname n).
Proof.
  intros H. unfold name_ok, uname. apply Forall_map. apply (Forall_impl _ (P := label_ok)); [|exact H]. intros l [NE L]. split.
  - destruct l; [contradiction|discriminate].
  - apply Forall_map. apply (Forall_impl _ (P := fun b => b < 256)); [|exact L]. apply uc_lt.
Qed.
Lemma lname_uname n : lname (uname n) = lname n.
Proof. unfold lname, uname. rewrite map_map. apply map_ext. intros l. rewrite map_map. apply map_ext. apply lc_uc. Qed.

(** ** Strings in order *)
Lemma bytes_of_inj a : forall b, bytes_of_string a = bytes_of_string b -> a = b.
Proof.
  unfold bytes_of_string. induction a as [|c a IH]; intros [|d b] H; try discriminate H; [reflexivity|]. cbn [list_ascii_of_string map] in H.
  assert (X : N_of_ascii c = N_of_ascii d) by congruence. rewrite <- (ascii_N_embedding c), X, ascii_N_embedding. f_equal. apply IH. congruence.
Qed.
Lemma str_lt_iff a b : str_lt a b = true <-> label_lt (bytes_of_string a) (bytes_of_string b).
Proof. unfold str_lt. rewrite is_lt_iff. apply bytes_compare_lt. Qed.
Lemma str_irrefl a : str_lt a a = false.
Proof. unfold str_lt. replace (bytes_compare (bytes_of_string a) (bytes_of_string a)) with Eq; [reflexivity|]. symmetry. apply bytes_compare_eq. reflexivity. Qed.
Lemma str_trans a b c : str_lt a b = true -> str_lt b c = true -> str_lt a c = true.
Proof. rewrite !str_lt_iff. apply label_lt_trans. Qed.
Lemma str_total a b : str_lt a b = true \/ a = b \/ str_lt b a = true.
Proof.
  unfold str_lt. destruct (bytes_compare (bytes_of_string a) (bytes_of_string b)) eqn:E.
  - right. left. apply bytes_of_inj, bytes_compare_eq, E.
  - left. reflexivity.
  - right. right. rewrite bytes_compare_sym, E. reflexivity.
Qed.
Lemma str_asym a b : str_lt a b = true -> str_lt b a = false.
Proof. intros H. destruct (str_lt b a) eqn:E; [|reflexivity]. pose proof (str_trans _ _ _ H E) as X. rewrite str_irrefl in X. discriminate X. Qed.

Lemma owner_split_show hl a : name_ok (hl :: a) -> owner_split (upper (show (hl :: a))) =
  match a with [] => None | _ => Some (show_label (map uc hl), show (uname a)) end.
Proof.
  intros H. rewrite show_upper by exact H. unfold owner_split. rewrite splitDomainName_show by (apply uname_ok, H). destruct a as [|l a]; [reflexivity|]. cbn [uname map].
  inversion H as [|? ? _ Ha]; subst. apply uname_ok in Ha. f_equal. f_equal. change (show_label (map uc l) :: map show_label (map (map uc) a)) with (map show_label (uname (l :: a))).
  unfold fqdn, isFqdn. change (uname (l :: a)) with (map uc l :: uname a) in *. rewrite fq_join_labels by exact Ha. rewrite join_show by exact Ha. reflexivity.
Qed.
Lemma sub_show a q : name_ok a -> name_ok q -> isSubDomain (show (uname a)) (upper (show q)) = true <-> suffix (lname a) (lname q).
Proof. intros A Q. rewrite show_upper by exact Q. rewrite isSubDomain_show by (apply uname_ok; assumption). unfold below. rewrite !lname_uname. split; exact (fun H => H). Qed.

Section CHAIN.
Variable hashName : string -> N -> N -> string -> string.
Variable z : zone.
Variable c : chain3.
Hypothesis Z : zone_ok z.
Hypothesis HC : chain_ok z c.
Hypothesis HH : hash_ok hashName c.
Notation hs := (hash hashName c).
Notation auth := (authentic3 hashName z c).

Lemma node_ok n : is_node z n -> name_ok n /\ lname n = n /\ suffix (z_apex z) n.
Proof.
  intros (A & o & O & S). destruct (owner_ok z Z o O) as (Ook & Ol & _). split; [apply (name_ok_suffix n o S Ook)|]. split; [apply (lname_suffix n o S Ol)|exact A].
Qed.
Lemma chain_name n : In n (c_names c) -> name_ok n /\ lname n = n /\ suffix (z_apex z) n.
Proof. intros H. apply node_ok. apply HC, H. Qed.
(** A record with the name it belongs to *)
Definition rec_of (r : nsec3) (n nx : name) : Prop :=
  In n (c_names c) /\ In nx (c_names c) /\ z_apex z <> [] /\
  (forall t, In t (h_types r) <-> has z n t) /\
  (forall m, In m (c_names c) -> ~ between (hs n) (hs m) (hs nx)) /\
  (N.testbit (h_flags r) 0 = false -> forall m, is_node z m -> ~ between (hs n) (hs m) (hs nx)).
Lemma match_sound r m : auth r -> name_ok m -> lname m = m -> nsec3_match hashName r (show m) = true ->
  suffix (z_apex z) m /\ exists nx, rec_of r m nx.
Proof.
  intros (n & nx & hl & apex' & I & I' & E1 & E2 & E3 & Ok & La & Eo & Eh & En & T & C & CO) Mok Ml H. unfold nsec3_match in H. cbv zeta in H.
  rewrite Eo in H. rewrite owner_split_show in H by exact Ok. destruct apex' as [|l a] eqn:X; [discriminate H|]. rewrite <- X in *. inversion Ok as [|? ? _ Aok]; subst x l0.
  apply andb_prop in H. destruct H as [S H]. apply sub_show in S; [|exact Aok|exact Mok]. rewrite La, Ml in S. split; [exact S|].
  apply String.eqb_eq in H. rewrite Eh in H. destruct HH as [Inj Plain]. rewrite Plain in H. rewrite E1, E2, E3 in H. fold (hs m) in H.
  destruct (chain_name n I) as (Nok & Nl & _). assert (n = m) as -> by (apply Inj; assumption). exists nx. repeat (split; [assumption|]). split; [|repeat (split; [assumption|]); assumption].
  rewrite <- La, X. discriminate.
Qed.
Lemma cover_sound r m : auth r -> name_ok m -> lname m = m -> nsec3_match hashName r (show m) = false -> nsec3_cover hashName r (show m) = true ->
  suffix (z_apex z) m /\ ~ In m (c_names c) /\ (N.testbit (h_flags r) 0 = false -> ~ is_node z m).
Proof.
  intros (n & nx & hl & apex' & I & I' & E1 & E2 & E3 & Ok & La & Eo & Eh & En & T & C & CO) Mok Ml NM H. unfold nsec3_match in NM. unfold nsec3_cover in H. cbv zeta in H, NM.
  rewrite Eo in H, NM. rewrite owner_split_show in H, NM by exact Ok. destruct apex' as [|l a] eqn:X; [discriminate H|]. rewrite <- X in *. inversion Ok as [|? ? _ Aok]; subst x l0.
  destruct (isSubDomain (show (uname apex')) (upper (show m))) eqn:S; [|discriminate H]. apply sub_show in S; [|exact Aok|exact Mok]. rewrite La, Ml in S. split; [exact S|]. cbn [andb] in NM.
  rewrite Eh in H, NM. destruct HH as [Inj Plain]. rewrite Plain in H, NM. rewrite E1, E2, E3 in H, NM. fold (hs m) in H, NM. rewrite En in H.
  assert (B : between (hs n) (hs m) (hs nx)).
  { unfold between. apply String.eqb_neq in NM. destruct (String.eqb_spec (hs n) (hs nx)) as [E|NE].
    - rewrite E, str_irrefl. congruence.
    - cbn [andb] in H. destruct (str_lt (hs nx) (hs n)) eqn:L.
      + rewrite (str_asym _ _ L). apply orb_prop in H. exact H.
      + destruct (str_lt (hs m) (hs n)) eqn:L2; [discriminate H|]. destruct (str_total (hs n) (hs m)) as [G|[G|G]]; [|contradiction|congruence].
        rewrite (str_trans _ _ _ G H). split; assumption. }
  split; [intros M; exact (C m M B)|]. intros O M. exact (CO O m M B).
Qed.

Lemma encloser_from_spec rs q k : name_ok q -> lname q = q -> (k <= length q)%nat -> forall ce nc, encloser_from hashName rs (show q) k = Some (ce, nc) ->
  exists j, (j < k)%nat /\ ce = show (skipn (length q - j) q) /\ nc = show (skipn (length q - S j) q) /\ nsec3MatchAny hashName rs ce = true /\
    forall i, (j < i < k)%nat -> nsec3MatchAny hashName rs (show (skipn (length q - i) q)) = false.
Proof.
  intros Qok Ql. induction k as [|k IH]; intros K ce nc H; cbn [encloser_from] in H; [discriminate H|]. rewrite !lastNLabels_show in H by assumption.
  destruct (nsec3MatchAny hashName rs (show (skipn (length q - k) q))) eqn:M.
  - injection H as <- <-. exists k. split; [lia|]. split; [reflexivity|]. split; [reflexivity|]. split; [exact M|]. intros i I. lia.
  - destruct (IH ltac:(lia) ce nc H) as (j & L & E1 & E2 & M' & F). exists j. split; [lia|]. repeat (split; [assumption|]). intros i I.
    destruct (Nat.eq_dec i k) as [->|NE]; [exact M|]. apply F. lia.
Qed.
Lemma match_any_sound rs m : Forall auth rs -> name_ok m -> lname m = m -> nsec3MatchAny hashName rs (show m) = true -> exists r nx, In r rs /\ rec_of r m nx /\ suffix (z_apex z) m.
Proof.
  intros F Mok Ml H. apply existsb_exists in H. destruct H as (r & I & H). rewrite Forall_forall in F. destruct (match_sound r m (F r I) Mok Ml H) as (S & nx & R). exists r, nx. auto.
Qed.
Lemma match_none rs m r : nsec3MatchAny hashName rs m = false -> In r rs -> nsec3_match hashName r m = false.
Proof. intros H I. apply not_true_iff_false. intros E. apply not_true_iff_false in H. apply H. apply existsb_exists. exists r. auto. Qed.
Lemma cover_any_sound rs m : Forall auth rs -> name_ok m -> lname m = m -> (forall r, In r rs -> nsec3_match hashName r (show m) = false) -> nsec3CoverAny hashName rs (show m) = true ->
  ~ In m (c_names c) /\ ((forall r, In r rs -> N.testbit (h_flags r) 0 = false) -> ~ is_node z m).
Proof.
  intros F Mok Ml NM H. apply existsb_exists in H. destruct H as (r & I & H). rewrite Forall_forall in F. destruct (cover_sound r m (F r I) Mok Ml (NM r I) H) as (_ & A & B). split; [exact A|].
  intros O. apply B, O, I.
Qed.

(** The closest encloser with the next closer name *)
Lemma encloser_sound rs q ce nc : Forall auth rs -> name_ok q -> lname q = q -> nsec3ClosestEncloser hashName rs (show q) = Some (ce, nc) -> (forall r, In r rs -> nsec3_match hashName r (show q) = false) ->
  nsec3CoverAny hashName rs nc = true ->
  exists e c', ce = show e /\ nc = show c' /\ e <> [] /\ name_ok e /\ lname e = e /\ In e (c_names c) /\ suffix e q /\ suffix c' q /\ suffix (z_apex z) c' /\ ~ In c' (c_names c) /\
    ((forall r, In r rs -> N.testbit (h_flags r) 0 = false) -> ~ is_node z c' /\ closest z q e).
Proof.
  intros F Qok Ql H NM CV. unfold nsec3ClosestEncloser in H. cbv zeta in H. rewrite canonicalName_show, Ql in H by exact Qok. unfold countLabel in H. rewrite splitDomainName_show in H by exact Qok. rewrite map_length in H.
  apply encloser_from_spec in H; [|assumption|assumption|lia]. destruct H as (j & L & -> & -> & M & NJ).
  set (e := skipn (length q - j) q) in *. set (c' := skipn (length q - S j) q) in *.
  assert (Eok : name_ok e) by apply name_ok_skipn, Qok. assert (El : lname e = e) by apply lname_skipn, Ql. assert (Cok : name_ok c') by apply name_ok_skipn, Qok. assert (Cl : lname c' = c') by apply lname_skipn, Ql.
  assert (Sq : suffix e q) by (exists (firstn (length q - j) q); symmetry; apply firstn_skipn). assert (Sc : suffix c' q) by (exists (firstn (length q - S j) q); symmetry; apply firstn_skipn).
  assert (Le : length e = j) by (unfold e; rewrite skipn_length; lia). assert (Lc : length c' = S j) by (unfold c'; rewrite skipn_length; lia).
  destruct (match_any_sound rs e F Eok El M) as (r & nx & Ir & (Ie & _ & NR & _) & Se).
  assert (NMc : forall r, In r rs -> nsec3_match hashName r (show c') = false).
  { destruct (Nat.eq_dec (S j) (length q)) as [E|NE].
    - assert (c' = q) as -> by (unfold c'; rewrite E, Nat.sub_diag; reflexivity). exact NM.
    - intros r' I'. apply (match_none rs); [|exact I']. apply NJ. lia. }
  assert (Ec : suffix e c') by (apply (suffix_linear e c' q Sq Sc); lia). assert (Sa : suffix (z_apex z) c') by (apply (suffix_trans _ e); assumption).
  destruct (cover_any_sound rs c' F Cok Cl NMc CV) as [NI NO].
  assert (NE : e <> []). { intros X. rewrite X in Se. destruct Se as (p & P). symmetry in P. apply app_eq_nil in P. destruct P as [_ P]. contradiction. }
  exists e, c'. repeat (split; [first [reflexivity|assumption]|]). intros O. specialize (NO O). split; [exact NO|]. split; [apply HC, Ie|]. split; [exact Sq|].
  intros e' N' S'. rewrite Le. destruct (Nat.le_gt_cases (length e') j) as [G|G]; [exact G|]. exfalso. apply NO. assert (S2 : suffix c' e') by (apply (suffix_linear c' e' q Sc S'); lia).
  destruct N' as (A' & o & O' & So). split; [exact Sa|]. exists o. split; [exact O'|]. apply (suffix_trans _ e'); assumption.
Qed.
Lemma wild_e e : e <> [] -> wild (show e) = show (star e).
Proof. intros H. destruct e; [contradiction|reflexivity]. Qed.
Lemma node_suffix a b : is_node z b -> suffix a b -> suffix (z_apex z) a -> is_node z a.
Proof. intros (_ & o & O & S) A Ap. split; [exact Ap|]. exists o. split; [exact O|]. apply (suffix_trans _ b); assumption. Qed.

Lemma nxdomain3_sound rs q' q : Forall auth rs -> name_ok q' -> lname q' = q ->
  (forall r, In r rs -> N.testbit (h_flags r) 0 = false) ->
  (forall r, In r rs -> nsec3_match hashName r (show q) = false) -> (forall r e, In r rs -> name_ok e -> lname e = e -> nsec3_match hashName r (show (star e)) = false) ->
  nsec3ProvesNXDOMAIN hashName rs (show q') = true -> ~ is_node z q /\ forall e, closest z q e -> ~ is_node z (star e).
Proof.
  intros F Oq Lq O NM NW H. assert (Qok : name_ok q) by (rewrite <- Lq; apply lname_ok, Oq). assert (Ql : lname q = q) by (rewrite <- Lq; apply lname_idem).
  unfold nsec3ProvesNXDOMAIN in H. assert (X : nsec3ClosestEncloser hashName rs (show q') = nsec3ClosestEncloser hashName rs (show q)) by (unfold nsec3ClosestEncloser; rewrite !canonicalName_show, Lq, Ql by assumption; reflexivity).
  rewrite X in H. destruct (nsec3ClosestEncloser hashName rs (show q)) as [[ce nc]|] eqn:E; [|discriminate H].
  destruct (nsec3CoverAny hashName rs nc) eqn:CV; cbn [negb] in H; [|discriminate H].
  destruct (encloser_sound rs q ce nc F Qok Ql E NM CV) as (e & c' & -> & -> & NE & Eok & El & Ie & Sq & Sc & Sa & NI & G). destruct (G O) as [NN CE].
  split; [intros N; apply NN; apply (node_suffix c' q N Sc Sa)|]. intros e1 CE1. rewrite (closest_unique z q e1 e CE1 CE). rewrite wild_e in H by exact NE.
  destruct (nsec3CoverAny hashName rs (show (star e))) eqn:CW.
  - destruct (cover_any_sound rs (star e) F (star_ok e Eok) (star_lname e El) (fun r I => NW r e I Eok El) CW) as [_ B]. apply B, O.
  - exfalso. unfold nsec3OptOutCovers in H. apply existsb_exists in H. destruct H as (r & I & H). rewrite (O r I) in H. discriminate H.
Qed.
(** With opt-out the name may still be an unsigned delegation, but has no other data. *)
Lemma nxdomain3_optout rs q' q t : Forall auth rs -> name_ok q' -> lname q' = q ->
  (forall r, In r rs -> nsec3_match hashName r (show q) = false) ->
  nsec3ProvesNXDOMAIN hashName rs (show q') = true -> has z q t -> t = 2.
Proof.
  intros F Oq Lq NM H Hq. assert (Qok : name_ok q) by (rewrite <- Lq; apply lname_ok, Oq). assert (Ql : lname q = q) by (rewrite <- Lq; apply lname_idem).
  unfold nsec3ProvesNXDOMAIN in H. assert (X : nsec3ClosestEncloser hashName rs (show q') = nsec3ClosestEncloser hashName rs (show q)) by (unfold nsec3ClosestEncloser; rewrite !canonicalName_show, Lq, Ql by assumption; reflexivity).
  rewrite X in H. destruct (nsec3ClosestEncloser hashName rs (show q)) as [[ce nc]|] eqn:E; [|discriminate H].
  destruct (nsec3CoverAny hashName rs nc) eqn:CV; cbn [negb] in H; [|discriminate H].
  destruct (encloser_sound rs q ce nc F Qok Ql E NM CV) as (e & c' & -> & -> & NE & Eok & El & Ie & Sq & Sc & Sa & NI & G).
  pose proof (owner_node z Z q (has_owner z q t Hq)) as NQ. pose proof (node_suffix c' q NQ Sc Sa) as NC. destruct Hq as (ts & D & I). destruct HC as (_ & _ & U). apply (U c' q ts NC NI D Sc t I).
Qed.

Lemma lacks_types r n (nx : name) t : rec_of r n nx -> lacks (h_types r) t = true -> forall t', t' = t \/ t' = 5 -> ~ has z n t'.
Proof. intros (_ & _ & _ & T & _) L t' E H. apply T in H. exact (lacks_not_in _ t L t' E H). Qed.
Lemma nodata3_sound rs q' q t : Forall auth rs -> name_ok q' -> lname q' = q ->
  (forall r, In r rs -> N.testbit (h_flags r) 0 = false) ->
  nsec3ProvesNODATA hashName rs (show q') t = true -> ~ answers z q t.
Proof.
  intros F Oq Lq O H. assert (Qok : name_ok q) by (rewrite <- Lq; apply lname_ok, Oq). assert (Ql : lname q = q) by (rewrite <- Lq; apply lname_idem).
  unfold nsec3ProvesNODATA in H. cbv zeta in H. rewrite canonicalName_show, Lq in H by exact Oq.
  destruct (find (fun r => nsec3_match hashName r (show q)) rs) as [r|] eqn:FD.
  - apply find_some in FD. destruct FD as [I M]. rewrite Forall_forall in F. destruct (match_sound r q (F r I) Qok Ql M) as (_ & nx & R).
    intros (t' & T & [Hq|(NN & _)]); [exact (lacks_types r q nx t R H t' T Hq)|]. apply NN. apply HC. apply R.
  - assert (NM : forall r, In r rs -> nsec3_match hashName r (show q) = false) by (intros r I; exact (find_none _ _ FD r I)).
    assert (OO : nsec3OptOutCovers hashName rs (show q) = false).
    { apply not_true_iff_false. intros X. apply existsb_exists in X. destruct X as (r & I & X). rewrite (O r I) in X. discriminate X. }
    rewrite OO, andb_false_r in H. destruct (nsec3ClosestEncloser hashName rs (show q)) as [[ce nc]|] eqn:E; [|discriminate H].
    destruct (nsec3CoverAny hashName rs nc) eqn:CV; [|discriminate H].
    destruct (encloser_sound rs q ce nc F Qok Ql E NM CV) as (e & c' & -> & -> & NE & Eok & El & Ie & Sq & Sc & Sa & NI & G). destruct (G O) as [NN CE]. rewrite wild_e in H by exact NE.
    destruct (find (fun r => nsec3_match hashName r (show (star e))) rs) as [w|] eqn:W; [|discriminate H]. apply find_some in W. destruct W as [I M].
    rewrite Forall_forall in F. destruct (match_sound w (star e) (F w I) (star_ok e Eok) (star_lname e El) M) as (_ & nx & R).
    intros (t' & T & [Hq|(_ & e1 & CE1 & Hw)]).
    + apply NN. apply (node_suffix c' q); [|exact Sc|exact Sa]. apply owner_node; [exact Z|]. apply (has_owner z q t' Hq).
    + rewrite (closest_unique z q e1 e CE1 CE) in Hw. exact (lacks_types w (star e) nx t R H t' T Hw).
Qed.
(** A DS query answered by opt-out *)
Lemma nodata3_ds rs q' q : Forall auth rs -> name_ok q' -> lname q' = q -> nsec3ProvesNODATA hashName rs (show q') 43 = true -> ~ has z q 43.
Proof.
  intros F Oq Lq H Hq. assert (Qok : name_ok q) by (rewrite <- Lq; apply lname_ok, Oq). assert (Ql : lname q = q) by (rewrite <- Lq; apply lname_idem).
  pose proof (owner_node z Z q (has_owner z q 43 Hq)) as NQ. assert (U : ~ In q (c_names c) -> False).
  { intros NI. destruct Hq as (ts & D & I). destruct HC as (_ & _ & U). pose proof (U q q ts NQ NI D (suffix_refl q) 43 I) as X. discriminate X. }
  unfold nsec3ProvesNODATA in H. cbv zeta in H. rewrite canonicalName_show, Lq in H by exact Oq.
  destruct (find (fun r => nsec3_match hashName r (show q)) rs) as [r|] eqn:FD.
  - apply find_some in FD. destruct FD as [I M]. rewrite Forall_forall in F. destruct (match_sound r q (F r I) Qok Ql M) as (_ & nx & R). exact (lacks_types r q nx 43 R H 43 (or_introl eq_refl) Hq).
  - assert (NM : forall r, In r rs -> nsec3_match hashName r (show q) = false) by (intros r I; exact (find_none _ _ FD r I)).
    change (43 =? TypeDS) with true in H. cbn [andb] in H. destruct (nsec3OptOutCovers hashName rs (show q)) eqn:OO.
    + apply existsb_exists in OO. destruct OO as (r & I & OO). apply andb_prop in OO. destruct OO as [_ CVR]. rewrite Forall_forall in F.
      destruct (cover_sound r q (F r I) Qok Ql (NM r I) CVR) as (_ & NI & _). exact (U NI).
    + destruct (nsec3ClosestEncloser hashName rs (show q)) as [[ce nc]|] eqn:E; [|discriminate H]. destruct (nsec3CoverAny hashName rs nc) eqn:CV; [|discriminate H].
      destruct (encloser_sound rs q ce nc F Qok Ql E NM CV) as (e & c' & _ & _ & _ & _ & _ & _ & Sq & Sc & Sa & NI & _). pose proof (node_suffix c' q NQ Sc Sa) as NC.
      destruct Hq as (ts & D & I). destruct HC as (_ & _ & U'). pose proof (U' c' q ts NC NI D Sc 43 I) as X. discriminate X.
Qed.
Lemma ds_denial3_sound r q : auth r -> name_ok q -> lname q = q -> nsec3DeniesDS hashName r (show q) = true -> ~ has z q 43.
Proof.
  intros A Qok Ql H Hq. unfold nsec3DeniesDS in H. destruct (nsec3_match hashName r (show q)) eqn:M.
  - destruct (match_sound r q A Qok Ql M) as (_ & nx & (_ & _ & _ & T & _)). apply T in Hq. unfold insecureBitmap, contains in H. apply andb_prop in H. destruct H as [H _]. apply andb_prop in H. destruct H as [_ H].
    apply negb_true_iff, not_true_iff_false in H. apply H. apply existsb_exists. exists 43. split; [exact Hq|reflexivity].
  - apply andb_prop in H. destruct H as [_ H]. destruct (cover_sound r q A Qok Ql M H) as (_ & NI & _). pose proof (owner_node z Z q (has_owner z q 43 Hq)) as NQ.
    destruct Hq as (ts & D & I). destruct HC as (_ & _ & U). pose proof (U q q ts NQ NI D (suffix_refl q) 43 I) as X. discriminate X.
Qed.
End CHAIN.

Lemma denial3_sound hashName z c : zone_ok z -> chain_ok z c -> hash_ok hashName c ->
  forall rs q' q t rcode, Forall (authentic3 hashName z c) rs -> name_ok q' -> lname q' = q ->
  (forall r, In r rs -> N.testbit (h_flags r) 0 = false) ->
  (forall r, In r rs -> nsec3_match hashName r (show q) = false) -> (forall r e, In r rs -> name_ok e -> lname e = e -> nsec3_match hashName r (show (star e)) = false) ->
  nsec3ProvesDenial hashName rs (show q') t rcode = true ->
  (rcode = 3 /\ ~ is_node z q /\ forall e, closest z q e -> ~ is_node z (star e)) \/ (rcode = 0 /\ ~ answers z q t).
Proof.
  intros Z C Hh rs q' q t rcode A Nq E Fl M1 M2 H. unfold nsec3ProvesDenial in H. destruct rs as [|r0 rs0] eqn:Er; [discriminate|]. rewrite <- Er in *. clear Er r0 rs0.
  destruct (N.eqb_spec rcode RcodeNameError) as [->|_].
  - left. split; [reflexivity|]. exact (nxdomain3_sound hashName z c Z C Hh rs q' q A Nq E Fl M1 M2 H).
  - destruct (N.eqb_spec rcode RcodeSuccess) as [->|_]; [|discriminate]. right. split; [reflexivity|]. exact (nodata3_sound hashName z c Z C Hh rs q' q t A Nq E Fl H).
Qed.
