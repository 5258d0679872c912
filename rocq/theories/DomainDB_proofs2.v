(** The domain blocklist against its specification. *)
From Verif Require Import Base Base_proofs DomainDB_model DomainDB_spec DomainDB_proofs.
Open Scope string_scope.

(** Exact meaning of a loaded trie, for every accepted list (well-formed or not). *)
Lemma twalk_iff rs t q m :
  Forall pathOk rs -> trieInv rs t -> pathOk q ->
  (snd (twalk (Map t) q m) = true <->
   exists p1 p2, q = (p1 ++ p2)%list /\ p1 <> [] /\
     ((exists r, In r rs /\ prefix_of (p1 ++ [""]) r)
      \/ (p2 <> [] /\ exists r, In r rs /\ prefix_of (p1 ++ ["*"]) r)
      \/ (p2 = [] /\ In p1 rs))).
Proof.
  intros Hrs [He Hg Ht Hno] (Hq & Hnd).
  assert (Hkey : forall p1 k, k <> exactKey -> p1 <> [] -> nodot p1 ->
     ((exists s, tget (Map t) p1 = Some s /\ has k s = true) <-> exists r, In r rs /\ prefix_of (p1 ++ [k]) r)).
  { intros p1 k Hk Hp1 Hnd1.
    rewrite <- He; [|destruct p1; discriminate|apply Forall_app; split; [exact Hnd1|repeat constructor; exact Hk]].
    rewrite tget_app. split.
    - intros (s & Hs & Hh). rewrite Hs. apply has_tget; exact Hh.
    - destruct (tget (Map t) p1) as [s|] eqn:E; [|congruence]. intros Hh. exists s. split; [reflexivity|].
      apply has_tget; exact Hh. }
  split.
  - intros H. destruct (twalk_true q (Map t) m Hq H) as (p1 & p2 & s & -> & Hp1 & Hget & Hor).
    apply Forall_app in Hnd. destruct Hnd as [Hnd1 Hnd2].
    exists p1, p2. repeat split; auto. destruct Hor as [(H0 & _)|[(Hp2 & H1 & _)|(Hp2 & H1 & _)]].
    + left. apply Hkey; auto; [discriminate|]. eauto.
    + right; left. split; [exact Hp2|]. apply Hkey; auto; [discriminate|]. eauto.
    + right; right. split; [exact Hp2|]. eapply Ht; eauto.
  - intros (p1 & p2 & -> & Hp1 & Hor).
    apply Forall_app in Hnd. destruct Hnd as [Hnd1 Hnd2].
    destruct Hor as [H0|[(Hp2 & H1)|(Hp2 & H1)]].
    + apply Hkey in H0; auto; [|discriminate]. destruct H0 as (s & Hs & Hh).
      eapply twalk_complete; eauto.
    + apply Hkey in H1; auto; [|discriminate]. destruct H1 as (s & Hs & Hh).
      eapply twalk_complete; eauto.
    + destruct (Hg p1 H1) as (s & Hs & Hor). eapply twalk_complete; eauto. tauto.
Qed.

(* ------------------------------------------------------------------ *)
(** * Lines and paths *)
Definition rule_parts (R : rule) : list string :=
  match R with Exact ls => ls | Apex ls => "" :: ls | Below ls => "*" :: ls end.

Lemma labels_nodot ls : Forall label_ok ls -> Forall (fun l => contains dot l = false) ls.
Proof. apply Forall_impl. intros a (_ & H & _). exact H. Qed.

Lemma label_head l : label_ok l -> exists c l', l = String c l' /\ Ascii.eqb c dot = false /\ Ascii.eqb c star = false.
Proof.
  intros (Hn & Hd & Hs). destruct l as [|c l']; [congruence|]. exists c, l'.
  simpl in Hd, Hs. apply orb_false_iff in Hd, Hs. tauto.
Qed.

Lemma join_head l rest c l' : l = String c l' -> exists s, join dot (l :: rest) = String c s.
Proof. intros ->. destruct rest; simpl; eauto. Qed.

Lemma eqb_sym_false c d : Ascii.eqb c d = false -> Ascii.eqb d c = false.
Proof. intros H. apply Ascii.eqb_neq. apply Ascii.eqb_neq in H. congruence. Qed.

Lemma prefix_cons c d s1 s2 : String.prefix (String c s1) (String d s2) =
  if ascii_dec c d then String.prefix s1 s2 else false.
Proof. reflexivity. Qed.

Lemma split_dot_cons s : split dot ("." ++ s) = "" :: split dot s.
Proof. reflexivity. Qed.
Lemma split_star_cons s : split dot ("*." ++ s) = "*" :: split dot s.
Proof. reflexivity. Qed.

Lemma hp_dot_no c s : Ascii.eqb c dot = false -> has_prefix "." (String c s) = false.
Proof.
  intros H. unfold has_prefix. cbn [String.prefix]. destruct (ascii_dec "." c) as [<-|]; [discriminate H|reflexivity].
Qed.
Lemma hp_star_no c s : Ascii.eqb c star = false -> has_prefix "*." (String c s) = false.
Proof.
  intros H. unfold has_prefix. cbn [String.prefix]. destruct (ascii_dec "*" c) as [<-|]; [discriminate H|reflexivity].
Qed.
Lemma hp_dot_yes s : has_prefix "." ("." ++ s) = true.
Proof. unfold has_prefix. simpl. destruct s; reflexivity. Qed.
Lemma hp_star_yes s : has_prefix "*." ("*." ++ s) = true.
Proof. unfold has_prefix. simpl. destruct s; reflexivity. Qed.

Lemma line_parts sub line R :
  line_rule sub line R -> split dot (normRule sub line) = rule_parts R /\ rule_ok R.
Proof.
  intros (R0 & (Hne & Hok) & Htext & ->). unfold normRule. rewrite Htext. clear Htext.
  destruct R0 as [ls|ls|ls]; cbn [rule_labels rule_text in_mode] in *.
  - destruct ls as [|l ls]; [congruence|].
    pose proof Hok as Hok'. apply Forall_cons_iff in Hok'. destruct Hok' as [Hl _].
    destruct (label_head l Hl) as (c & l' & El & Hcd & Hcs).
    destruct (join_head l ls c l' El) as (s & Es).
    destruct sub.
    + rewrite Es, (hp_dot_no c s Hcd), (hp_star_no c s Hcs). cbn [String.eqb negb andb].
      split; [|split; [discriminate|exact Hok]].
      rewrite <- Es. etransitivity; [exact (split_dot_cons _)|]. rewrite split_join; [reflexivity|discriminate|apply labels_nodot; exact Hok].
    + cbn [andb]. split; [|split; [discriminate|exact Hok]].
      rewrite split_join; [reflexivity|discriminate|apply labels_nodot; exact Hok].
  - rewrite hp_dot_yes. simpl negb. rewrite andb_false_r, andb_false_l.
    split; [|split; assumption].
    etransitivity; [exact (split_dot_cons _)|]. rewrite split_join; [reflexivity|exact Hne|apply labels_nodot; exact Hok].
  - rewrite hp_star_yes. simpl negb. rewrite andb_false_r.
    split; [|split; assumption].
    etransitivity; [exact (split_star_cons _)|]. rewrite split_join; [reflexivity|exact Hne|apply labels_nodot; exact Hok].
Qed.

Lemma name_parts name q : name_labels name q -> split dot (lower (trim_suffix dot name)) = q.
Proof. intros (Hne & Hd & E). rewrite <- E. apply split_join; assumption. Qed.

Lemma in_paths sub rules p : In p (paths sub rules) <-> exists line, In line rules /\ p = rev (split dot (normRule sub line)).
Proof. unfold paths. rewrite in_map_iff. split; intros (x & H1 & H2); exists x; auto. Qed.

(** A prefix of a well-formed path that ends with a sentinel is the complete path. *)
Lemma sentinel_prefix R p1 k :
  rule_ok R -> (k = "" \/ k = "*") -> prefix_of (p1 ++ [k]) (rev (rule_parts R)) ->
  R = (if String.eqb k "" then Apex else Below) (rev p1).
Proof.
  intros (Hne & Hok) Hk (s & Hs).
  assert (Hnot : forall s ls, Forall label_ok ls -> rev ls = ((p1 ++ [k]) ++ s)%list -> False).
  { clear s Hs. intros s ls Hls E. apply Forall_rev in Hls. rewrite E in Hls.
    apply Forall_app in Hls. destruct Hls as [Hls _]. apply Forall_app in Hls. destruct Hls as [_ Hls].
    apply Forall_cons_iff in Hls. destruct Hls as [(H1 & H2 & H3) _].
    destruct Hk as [->| ->]; [congruence|discriminate H3]. }
  assert (Hsent : forall k' ls, Forall label_ok ls -> (rev ls ++ [k'])%list = ((p1 ++ [k]) ++ s)%list -> k' = k /\ ls = rev p1).
  { intros k' ls Hls E. clear Hs. destruct s as [|x s _] using rev_ind.
    - rewrite app_nil_r in E. apply app_inj_tail in E. destruct E as [E ->]. split; [reflexivity|].
      rewrite <- E, rev_involutive. reflexivity.
    - rewrite app_assoc in E. apply app_inj_tail in E. destruct E as [E _]. exfalso. exact (Hnot s ls Hls E). }
  destruct R as [ls|ls|ls]; cbn [rule_parts rule_labels rev] in *.
  - exfalso. exact (Hnot s ls Hok Hs).
  - destruct (Hsent "" ls Hok Hs) as [<- ->]. reflexivity.
  - destruct (Hsent "*" ls Hok Hs) as [<- ->]. reflexivity.
Qed.

Definition db_of (sub : bool) (rules : list string) : kids := fold_left tins (paths sub rules) [].

Lemma match_iff sub rules db name :
  newDomainDB sub (OK rules) = OK db ->
  (snd (domainMatch db name) = true <->
   exists p1 p2, rev (split dot (lower (trim_suffix dot name))) = (p1 ++ p2)%list /\ p1 <> [] /\
     ((exists r, In r (paths sub rules) /\ prefix_of (p1 ++ [""]) r)
      \/ (p2 <> [] /\ exists r, In r (paths sub rules) /\ prefix_of (p1 ++ ["*"]) r)
      \/ (p2 = [] /\ In p1 (paths sub rules)))).
Proof.
  intros H. rewrite (domainMatch_twalk sub rules db name H).
  apply twalk_iff; [apply paths_ok|apply rules_trieInv|apply path_ok].
Qed.

Lemma wf_path sub rules r :
  Forall (well_formed sub) rules -> In r (paths sub rules) ->
  exists line R, In line rules /\ line_rule sub line R /\ rule_ok R /\ r = rev (rule_parts R).
Proof.
  intros Hwf Hin. apply in_paths in Hin. destruct Hin as (line & Hl & ->).
  rewrite Forall_forall in Hwf. destruct (Hwf line Hl) as (R & HR).
  exists line, R. destruct (line_parts sub line R HR) as [E Hok]. rewrite E. auto.
Qed.

(** ** Soundness, with the reported rule *)
Lemma domain_sound sub rules db name q :
  newDomainDB sub (OK rules) = OK db -> Forall (well_formed sub) rules -> name_labels name q ->
  snd (domainMatch db name) = true ->
  exists line R, In line rules /\ line_rule sub line R /\ covers R q /\
                 fst (domainMatch db name) = rule_text R.
Proof.
  intros Hdb Hwf Hq Hm.
  pose proof (name_parts name q Hq) as Eq.
  rewrite (domainMatch_twalk sub rules db name Hdb), Eq in *. 
  pose proof (rules_trieInv sub rules) as [He Hg Ht Hno].
  destruct Hq as (Hqne & Hqd & _).
  assert (Hqr : rev q <> []) by (intros E; apply Hqne; rewrite <- (rev_involutive q), E; reflexivity).
  assert (Hqnd : nodot (rev q)) by (apply Forall_rev, contains_dot_not_exact; exact Hqd).
  destruct (twalk_true _ _ _ Hqr Hm) as (p1 & p2 & s & Hsplit & Hp1 & Hget & Hor).
  assert (Hqe : q = (rev p2 ++ rev p1)%list).
  { rewrite <- (rev_involutive q), Hsplit, rev_app_distr. reflexivity. }
  assert (Hnd1 : nodot p1) by (rewrite Hsplit in Hqnd; apply Forall_app in Hqnd; tauto).
  simpl app in Hor.
  assert (Hpre : forall k, k <> exactKey -> has k s = true ->
            exists r, In r (paths sub rules) /\ prefix_of (p1 ++ [k]) r).
  { intros k Hk Hh. apply He.
    - destruct p1; discriminate.
    - apply Forall_app; split; [exact Hnd1|repeat constructor; exact Hk].
    - rewrite tget_app, Hget. apply has_tget; exact Hh. }
  destruct Hor as [(H0 & Ef)|[(Hp2 & H1 & Ef)|(Hp2 & H1 & Ef)]]; rewrite Ef; unfold matchedDomainParts.
  - destruct (Hpre "" ltac:(discriminate) H0) as (r & Hin & Hp).
    destruct (wf_path _ _ _ Hwf Hin) as (line & R & Hl & HR & Hok & ->).
    pose proof (sentinel_prefix R p1 "" Hok (or_introl eq_refl) Hp) as ->. simpl String.eqb in *. cbv iota in *.
    exists line, (Apex (rev p1)). repeat split; auto. exists (rev p2); exact Hqe.
  - destruct (Hpre "*" ltac:(discriminate) H1) as (r & Hin & Hp).
    destruct (wf_path _ _ _ Hwf Hin) as (line & R & Hl & HR & Hok & ->).
    pose proof (sentinel_prefix R p1 "*" Hok (or_intror eq_refl) Hp) as ->. simpl String.eqb in *. cbv iota in *.
    exists line, (Below (rev p1)). repeat split; auto. exists (rev p2). split; [|exact Hqe].
    intros E. apply Hp2. rewrite <- (rev_involutive p2), E. reflexivity.
  - subst p2. rewrite app_nil_r in Hsplit.
    assert (Hin : In p1 (paths sub rules)) by (eapply Ht; eauto).
    destruct (wf_path _ _ _ Hwf Hin) as (line & R & Hl & HR & Hok & Ep).
    exists line, R. repeat split; auto.
    + simpl in Hqe. rewrite Ep, rev_involutive in Hqe. 
      destruct R as [ls|ls|ls]; cbn [rule_parts] in Hqe; simpl.
      * exact Hqe.
      * exists [""]. exact Hqe.
      * exists ["*"]. split; [discriminate|exact Hqe].
    + rewrite Ep, rev_involutive. destruct Hok as [Hne Hok]. destruct R as [ls|ls|ls]; cbn [rule_parts rule_labels rule_text] in *.
      * reflexivity.
      * destruct ls; [congruence|reflexivity].
      * destruct ls; [congruence|reflexivity].
Qed.

(** ** Completeness, whatever else is in the list *)
Lemma domain_complete sub rules db name q line R :
  newDomainDB sub (OK rules) = OK db -> name_labels name q ->
  In line rules -> line_rule sub line R -> covers R q ->
  snd (domainMatch db name) = true.
Proof.
  intros Hdb Hq Hl HR Hc. apply (match_iff sub rules db name Hdb).
  rewrite (name_parts name q Hq).
  destruct (line_parts sub line R HR) as [Eparts (Hne & Hok)].
  assert (Hin : In (rev (rule_parts R)) (paths sub rules)).
  { apply in_paths. exists line. rewrite Eparts. auto. }
  assert (Hrn : forall ls : list string, ls <> [] -> rev ls <> []).
  { intros ls H E. apply H. rewrite <- (rev_involutive ls), E. reflexivity. }
  destruct R as [ls|ls|ls]; cbn [covers rule_labels rule_parts] in *.
  - subst q. exists (rev ls), []. rewrite app_nil_r. repeat split; auto.
  - destruct Hc as (pre & ->). exists (rev ls), (rev pre). rewrite rev_app_distr. repeat split; auto.
    left. exists (rev ("" :: ls)). split; [exact Hin|]. exists []. rewrite app_nil_r. reflexivity.
  - destruct Hc as (pre & Hpre & ->). exists (rev ls), (rev pre). rewrite rev_app_distr. repeat split; auto.
    right; left. split; [auto|]. exists (rev ("*" :: ls)). split; [exact Hin|]. exists []. rewrite app_nil_r. reflexivity.
Qed.

(** ** Loading *)
Lemma addRules_total sub : forall rules h,
  (exists h', addRules sub h rules = OK h' /\ Forall (fun r => starsOk (rev (split dot (normRule sub r))) = true) rules)
  \/ (exists e, addRules sub h rules = Fail e /\ Exists (fun r => starsOk (rev (split dot (normRule sub r))) = false) rules).
Proof.
  induction rules as [|r rules IH]; intros h; simpl; [left; eauto|].
  pose proof (addParts_total (rev (split dot (normRule sub r))) h rootNode) as Ht.
  destruct (starsOk (rev (split dot (normRule sub r)))) eqn:Es.
  - destruct Ht as (h1 & ->). destruct (IH h1) as [(h' & E & HF)|(e & E & HE)]; [left|right]; eauto.
  - destruct Ht as (e & ->). right. exists e. split; [reflexivity|]. left; exact Es.
Qed.

Lemma starsOk_app l x : starsOk (l ++ [x]) =
  (forallb (fun p => negb (contains star p)) l && negb (badStar x true))%bool.
Proof.
  induction l as [|p l IH]; simpl; [rewrite andb_true_r; reflexivity|].
  rewrite IH. unfold badStar at 1.
  destruct (l ++ [x])%list eqn:E; [destruct l; discriminate|].
  simpl. rewrite andb_true_r. rewrite andb_assoc. reflexivity.
Qed.

Lemma badStar_true x : badStar x true = true <-> contains star x = true /\ x <> "*".
Proof.
  unfold badStar. simpl. rewrite andb_true_iff, negb_true_iff.
  split; intros [H1 H2]; split; auto.
  - intros ->. discriminate H2.
  - apply Nat.eqb_neq. intros Hl. apply H2.
    destruct x as [|c [|d x]]; try discriminate. simpl in H1. rewrite orb_false_r in H1.
    apply Ascii.eqb_eq in H1. subst c. reflexivity.
Qed.

Lemma starsOk_parts p0 ps : starsOk (rev (p0 :: ps)) = false <->
  (contains star p0 = true /\ p0 <> "*") \/ Exists (fun p => contains star p = true) ps.
Proof.
  simpl rev. rewrite starsOk_app, andb_false_iff, negb_false_iff, badStar_true.
  assert (H : forallb (fun p => negb (contains star p)) (rev ps) = false <-> Exists (fun p => contains star p = true) ps).
  { rewrite Exists_exists. split.
    - intros Hf. assert (Hn : ~ forall x, In x (rev ps) -> negb (contains star x) = true).
      { intros Ha. apply forallb_forall in Ha. congruence. }
      clear Hf. induction ps as [|p ps IH]; [exfalso; apply Hn; intros x []|].
      destruct (contains star p) eqn:E; [exists p; split; [left; reflexivity|exact E]|].
      destruct IH as (x & Hx & Ex); [|exists x; split; [right; exact Hx|exact Ex]].
      intros Ha. apply Hn. intros x Hx. apply in_rev in Hx. destruct Hx as [<-|Hx]; [rewrite E; reflexivity|].
      apply Ha. apply -> in_rev; exact Hx.
    - intros (x & Hx & Ex). apply not_true_iff_false. intros Ha. rewrite forallb_forall in Ha.
      apply in_rev in Hx. apply Ha in Hx. rewrite Ex in Hx. discriminate. }
  rewrite H. tauto.
Qed.

Lemma starsOk_misplaced sub line :
  starsOk (rev (split dot (normRule sub line))) = false <-> misplaced_star sub line.
Proof.
  unfold misplaced_star, normRule. set (r := lower (trim_suffix dot (trim_space line))).
  assert (Huniq : forall ls, ls <> [] -> Forall (fun l => contains dot l = false) ls -> join dot ls = r -> split dot r = ls).
  { intros ls H1 H2 <-. apply split_join; assumption. }
  assert (Hself : split dot r <> [] /\ Forall (fun l => contains dot l = false) (split dot r) /\ join dot (split dot r) = r).
  { split; [apply split_not_nil|]. split; [apply split_no_sep|apply join_split]. }
  destruct (split dot r) as [|p0 ps] eqn:Esp; [destruct Hself; congruence|].
  assert (Hspec : (exists ls, ls <> [] /\ Forall (fun l => contains dot l = false) ls /\ join dot ls = r /\
     ((exists l, In l ls /\ contains star l = true /\ l <> "*") \/ In "*" (tl ls) \/ (sub = true /\ ls = ["*"])))
     <-> ((contains star p0 = true /\ p0 <> "*") \/ Exists (fun p => contains star p = true) ps
          \/ (sub = true /\ p0 = "*" /\ ps = []))).
  { split.
    - intros (ls & H1 & H2 & H3 & H4). rewrite <- (Huniq ls H1 H2 H3) in H4.
      destruct H4 as [(l & [<-|Hin] & Hc & Hn)|[Hin|(Hs & Hl)]].
      + left; auto.
      + right; left. apply Exists_exists. eauto.
      + simpl in Hin. right; left. apply Exists_exists. exists "*". auto.
      + right; right. injection Hl as -> ->. auto.
    - intros H. exists (p0 :: ps). destruct Hself as (H1 & H2 & H3). repeat split; auto.
      destruct H as [(Hc & Hn)|[He|(Hs & -> & ->)]].
      + left. exists p0. split; [left; reflexivity|]. auto.
      + apply Exists_exists in He. destruct He as (x & Hx & Hc).
        destruct (String.string_dec x "*") as [->|Hne]; [right; left; exact Hx|].
        left. exists x. split; [right; exact Hx|]. auto.
      + right; right. auto. }
  rewrite Hspec. clear Hspec.
  destruct (sub && negb (r =? "")%string && negb (has_prefix "." r) && negb (has_prefix "*." r))%bool eqn:Econd.
  - rewrite split_dot_cons. rewrite Esp.
    rewrite starsOk_parts.
    apply andb_true_iff in Econd. destruct Econd as [Econd Hnstar]. apply negb_true_iff in Hnstar.
    apply andb_true_iff in Econd. destruct Econd as [Econd Hndot].
    apply andb_true_iff in Econd. destruct Econd as [Hsub Hnempty].
    split.
    + intros [(H & _)|H]; [discriminate H|]. apply Exists_cons in H. destruct H as [H|H]; [|auto].
      destruct (String.string_dec p0 "*") as [->|Hne]; [|auto].
      right; right. repeat split; auto. 
      destruct ps as [|p1 ps]; [reflexivity|]. exfalso.
      destruct Hself as (_ & _ & Hj). rewrite join_cons2 in Hj. rewrite <- Hj in Hnstar.
      pose proof (hp_star_yes (join dot (p1 :: ps))) as Hy. 
      change ("*." ++ join dot (p1 :: ps)) with ("*" ++ String dot (join dot (p1 :: ps))) in Hy. congruence.
    + intros [(H & _)|[H|(_ & -> & ->)]]; right; [left; exact H|right; exact H|left; reflexivity].
  - rewrite Esp, starsOk_parts. split; [tauto|].
    intros [H|[H|(-> & -> & ->)]]; [auto|auto|]. exfalso.
    destruct Hself as (_ & _ & Hj). simpl in Hj. rewrite <- Hj in Econd. discriminate Econd.
Qed.

Lemma load_fails_iff sub rules :
  ((exists e, newDomainDB sub (OK rules) = Fail e) <-> Exists (misplaced_star sub) rules)
  /\ (~ Exists (misplaced_star sub) rules -> exists db, newDomainDB sub (OK rules) = OK db).
Proof.
  assert (Hiff : Exists (misplaced_star sub) rules <->
     Exists (fun r => starsOk (rev (split dot (normRule sub r))) = false) rules).
  { rewrite !Exists_exists. split; intros (x & Hx & H); exists x; (split; [exact Hx|]); apply starsOk_misplaced; exact H. }
  rewrite Hiff. unfold newDomainDB. destruct (addRules_total sub rules heap0) as [(h' & E & HF)|(e & E & HE)]; rewrite E.
  - assert (HN : ~ Exists (fun r => starsOk (rev (split dot (normRule sub r))) = false) rules).
    { rewrite Exists_exists. intros (x & Hx & Hf). rewrite Forall_forall in HF. rewrite HF in Hf by exact Hx. discriminate. }
    split; [|eauto]. split; [intros (e & He); discriminate|tauto].
  - split; [split; eauto|]. tauto.
Qed.

Lemma wf_not_misplaced sub line : well_formed sub line -> ~ misplaced_star sub line.
Proof.
  intros (R & HR) Hm. apply starsOk_misplaced in Hm.
  destruct (line_parts sub line R HR) as [E (Hne & Hok)]. rewrite E in Hm.
  assert (Hnos : forall ls, Forall label_ok ls -> ~ Exists (fun p => contains star p = true) ls).
  { intros ls Hls He. apply Exists_exists in He. destruct He as (x & Hx & Hc).
    rewrite Forall_forall in Hls. destruct (Hls x Hx) as (_ & _ & H). congruence. }
  destruct R as [ls|ls|ls]; cbn [rule_parts rule_labels] in *.
  - destruct ls as [|l ls]; [congruence|]. apply starsOk_parts in Hm.
    apply Forall_cons_iff in Hok. destruct Hok as [(_ & _ & Hl) Hok].
    destruct Hm as [(H & _)|H]; [congruence|exact (Hnos ls Hok H)].
  - apply starsOk_parts in Hm. destruct Hm as [(H & _)|H]; [discriminate|exact (Hnos ls Hok H)].
  - apply starsOk_parts in Hm. destruct Hm as [(_ & H)|H]; [congruence|exact (Hnos ls Hok H)].
Qed.

Lemma domain_exact sub rules name q :
  Forall (well_formed sub) rules -> name_labels name q ->
  exists db, newDomainDB sub (OK rules) = OK db /\
    (snd (domainMatch db name) = true <->
     exists line R, In line rules /\ line_rule sub line R /\ covers R q).
Proof.
  intros Hwf Hq.
  destruct (load_fails_iff sub rules) as [_ Hload]. destruct Hload as (db & Hdb).
  { intros He. apply Exists_exists in He. destruct He as (x & Hx & Hm).
    rewrite Forall_forall in Hwf. exact (wf_not_misplaced sub x (Hwf x Hx) Hm). }
  exists db. split; [exact Hdb|]. split.
  - intros Hm. destruct (domain_sound sub rules db name q Hdb Hwf Hq Hm) as (l & R & H1 & H2 & H3 & _). eauto.
  - intros (l & R & H1 & H2 & H3). eapply domain_complete; eauto.
Qed.

(** ** Order, duplicates, letter case *)
Lemma domain_order sub rules1 rules2 db1 db2 name :
  (forall r, In r rules1 <-> In r rules2) ->
  newDomainDB sub (OK rules1) = OK db1 -> newDomainDB sub (OK rules2) = OK db2 ->
  snd (domainMatch db1 name) = snd (domainMatch db2 name).
Proof.
  intros Hset H1 H2.
  assert (Hp : forall p, In p (paths sub rules1) <-> In p (paths sub rules2)).
  { intros p. rewrite !in_paths. split; intros (l & Hl & E); exists l; (split; [apply Hset; exact Hl|exact E]). }
  apply eq_true_iff_eq. rewrite (match_iff sub rules1 db1 name H1), (match_iff sub rules2 db2 name H2).
  split; intros (p1 & p2 & E & Hne & Hor); exists p1, p2; (split; [exact E|]); (split; [exact Hne|]);
    destruct Hor as [(r & Hr & Hx)|[(Hp2 & r & Hr & Hx)|(Hp2 & Hx)]].
  - left; exists r; split; [apply Hp; exact Hr|exact Hx].
  - right; left; split; [exact Hp2|]; exists r; split; [apply Hp; exact Hr|exact Hx].
  - right; right; split; [exact Hp2|apply Hp; exact Hx].
  - left; exists r; split; [apply Hp; exact Hr|exact Hx].
  - right; left; split; [exact Hp2|]; exists r; split; [apply Hp; exact Hr|exact Hx].
  - right; right; split; [exact Hp2|apply Hp; exact Hx].
Qed.

Lemma lower_ascii_dot c : Ascii.eqb (lower_ascii c) dot = Ascii.eqb c dot.
Proof. destruct c as [[] [] [] [] [] [] [] []]; vm_compute; reflexivity. Qed.

Lemma lower_trim_suffix s : lower (trim_suffix dot s) = trim_suffix dot (lower s).
Proof.
  induction s as [|c s IH]; [reflexivity|]. destruct s as [|d s].
  - simpl. rewrite lower_ascii_dot. destruct (Ascii.eqb c dot); reflexivity.
  - change (trim_suffix dot (String c (String d s))) with (String c (trim_suffix dot (String d s))).
    change (lower (String c (trim_suffix dot (String d s)))) with (String (lower_ascii c) (lower (trim_suffix dot (String d s)))).
    rewrite IH. reflexivity.
Qed.

Lemma domain_case db name1 name2 :
  lower name1 = lower name2 -> domainMatch db name1 = domainMatch db name2.
Proof. intros E. unfold domainMatch. rewrite !lower_trim_suffix, E. reflexivity. Qed.
