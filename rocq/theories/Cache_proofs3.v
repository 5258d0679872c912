From Verif Require Import Base Base_proofs Bytes Bytes_proofs Dns Net Blob_model Blob_spec Blob_proofs
  Lru_model Lru_spec Lru_proofs Lru_proofs2 Cache_model Cache_spec Cache_proofs Cache_proofs2.
From Coq Require Import ZifyBool ZifyNat ZifyN.
Open Scope N_scope.

(** ** Names *)
Lemma sapp_assoc a b c : ((a ++ b) ++ c = a ++ (b ++ c))%string.
Proof. induction a; cbn; [reflexivity|congruence]. Qed.
Lemma sapp_nil a : (a ++ "" = a)%string.
Proof. induction a; cbn; congruence. Qed.


Lemma contains_cons x c s : contains x (String c s) = Ascii.eqb c x || contains x s.
Proof. reflexivity. Qed.

Lemma labels_esc_split s : forall cur, no_escape s ->
  labels_esc cur s = match split dot s with [] => [] | x :: l => (cur ++ x)%string :: l end.
Proof.
  unfold no_escape. induction s as [|c s IH]; intros cur H; cbn [labels_esc split].
  - rewrite sapp_nil. reflexivity.
  - rewrite contains_cons in H. apply orb_false_elim in H. destruct H as [H1 H2]. rewrite H1.
    destruct (Ascii.eqb c dot) eqn:E.
    + rewrite (IH _ H2). rewrite sapp_nil. destruct (split dot s) eqn:S; [destruct (split_not_nil _ _ S)|]. reflexivity.
    + rewrite (IH _ H2). destruct (split dot s) eqn:S; [destruct (split_not_nil _ _ S)|]. rewrite sapp_assoc. reflexivity.
Qed.

Lemma dns_labels_split s : no_escape s -> dns_labels s = split dot s.
Proof. intros H. unfold dns_labels. rewrite (labels_esc_split s _ H). destruct (split dot s); reflexivity. Qed.

Lemma contains_app x a b : contains x (a ++ b)%string = contains x a || contains x b.
Proof. induction a as [|c a IH]; [reflexivity|]. cbn [append]. rewrite !contains_cons, IH. apply orb_assoc. Qed.

Lemma labels_esc_no_escape n : forall s cur, (String.length s <= n)%nat -> Forall no_escape (labels_esc cur s) -> no_escape s /\ no_escape cur.
Proof.
  unfold no_escape. induction n as [|n IH]; intros s cur Hl H.
  - destruct s; [|cbn in Hl; lia]. cbn in H. inversion H; auto.
  - destruct s as [|c s]; cbn [labels_esc] in H; [inversion H; auto|]. cbn [String.length] in Hl. rewrite contains_cons.
    destruct (Ascii.eqb c "\") eqn:E.
    + exfalso. destruct s as [|d s].
      * inversion H as [|? ? H1 _]; subst. rewrite contains_app in H1. apply orb_false_elim in H1. destruct H1 as [_ H1]. cbn in H1. discriminate.
      * destruct (IH s _ ltac:(cbn in Hl; lia) H) as [_ H1]. rewrite contains_app in H1. apply orb_false_elim in H1. destruct H1 as [_ H1].
        rewrite contains_cons, E in H1. discriminate.
    + destruct (Ascii.eqb c dot) eqn:D.
      * inversion H; subst. destruct (IH s ""%string ltac:(lia)) as [H1 H2']; auto.
      * destruct (IH s _ ltac:(lia) H) as [H1 H2]. rewrite contains_app in H2. apply orb_false_elim in H2. tauto.
Qed.

Lemma split_pieces_no_escape s : no_escape s -> Forall no_escape (split dot s).
Proof.
  unfold no_escape. induction s as [|c s IH]; intros H; cbn [split]; [constructor; auto; reflexivity|].
  rewrite contains_cons in H. apply orb_false_elim in H. destruct H as [H1 H2]. specialize (IH H2).
  destruct (Ascii.eqb c dot); [constructor; auto|]. destruct (split dot s); [constructor; auto; rewrite contains_cons, H1; reflexivity|].
  inversion IH; subst. constructor; auto. rewrite contains_cons, H1. assumption.
Qed.

Fixpoint suffixes {A} (l : list A) : list (list A) := match l with [] => [] | _ :: l' => l :: suffixes l' end.

Lemma joins_from_map l : joins_from l = map (join dot) (suffixes l).
Proof. induction l as [|x l IH]; [reflexivity|]. cbn [joins_from suffixes map]. rewrite IH. reflexivity. Qed.

Lemma suffixes_short {A} (l s : list A) : In s (suffixes l) -> (length s <= length l)%nat.
Proof. induction l as [|x l IH]; cbn [suffixes In]; [contradiction|]. intros [<-|H]; cbn [length]; [lia|]. apply IH in H. lia. Qed.

Lemma suffixes_iff {A} (l s : list A) : In s (firstn (length l - 1) (suffixes l)) <-> exists pre, l = pre ++ s /\ (2 <= length s)%nat.
Proof.
  induction l as [|x l IH].
  - cbn. split; [contradiction|]. intros (pre & E & H). destruct pre, s; cbn in *; try discriminate; lia.
  - destruct l as [|y l].
    + cbn. split; [contradiction|]. intros (pre & E & H). destruct pre as [|z pre]; cbn in E; subst; cbn in H; [lia|].
      injection E as <- E. destruct pre; [|discriminate]. cbn in E. subst. cbn in H. lia.
    + replace (length (x :: y :: l) - 1)%nat with (S (length (y :: l) - 1)) by (cbn; lia).
      cbn [suffixes]. cbn [firstn]. cbn [In]. cbn [suffixes] in IH. rewrite IH. split.
      * intros [<-|(pre & E & H)]; [exists []; cbn; split; [reflexivity|lia]|]. exists (x :: pre). rewrite E. auto.
      * intros (pre & E & H). destruct pre as [|z pre]; [left; exact E|right]. cbn in E. injection E as -> E. exists pre. auto.
Qed.

Lemma suffixes_sorted {A} (l : list A) a s b : suffixes l = a ++ s :: b -> forall t, In t b -> (length t < length s)%nat.
Proof.
  revert a. induction l as [|x l IH]; intros a E t Ht; cbn [suffixes] in E; [destruct a; discriminate|].
  destruct a as [|z a]; cbn in E; injection E as E1 E2.
  - subst. apply suffixes_short in Ht. cbn. lia.
  - eapply IH; eauto.
Qed.

Definition anc_lists (name : string) : list (list string) :=
  firstn (length (List.tl (split dot name)) - 1) (suffixes (List.tl (split dot name))).
Lemma ancestors_map name : ancestors name = map (join dot) (anc_lists name).
Proof.
  unfold ancestors, anc_lists. rewrite joins_from_map, firstn_map. do 2 f_equal.
  destruct (split dot name); cbn [List.tl length]; lia.
Qed.

Lemma contains_join x l : x <> dot -> contains x (join dot l) = existsb (contains x) l.
Proof.
  intros Hx. induction l as [|a l IH]; [reflexivity|]. destruct l as [|b l]; [cbn; rewrite orb_false_r; reflexivity|].
  change (join dot (a :: b :: l)) with (a ++ String dot (join dot (b :: l)))%string. rewrite contains_app, contains_cons, IH. cbn [existsb].
  destruct (Ascii.eqb dot x) eqn:E; [apply Ascii.eqb_eq in E; congruence|]. reflexivity.
Qed.

Lemma split_join_id l : l <> [] -> Forall (fun p => contains dot p = false) l -> split dot (join dot l) = l.
Proof. intros H F. apply split_join; assumption. Qed.

(* ancestors by splitting at every dot *)
Definition sp_anc (p n : string) : Prop :=
  exists l, l <> [] /\ split dot n = l ++ split dot p /\ (2 <= length (split dot p))%nat.

Lemma split_app_sep a b : split dot (a ++ String dot b)%string = split dot a ++ split dot b.
Proof.
  induction a as [|c a IH]; [reflexivity|]. cbn [append split]. rewrite IH. destruct (Ascii.eqb c dot); [reflexivity|].
  destruct (split dot a) as [|x l] eqn:E; [destruct (split_not_nil _ _ E)|]. reflexivity.
Qed.

Lemma split_two p : (2 <= length (split dot p))%nat <-> contains dot p = true.
Proof.
  induction p as [|c p IH]; [cbn; split; [lia|discriminate]|]. cbn [split contains]. destruct (Ascii.eqb c dot).
  - split; [reflexivity|]. intros _. destruct (split dot p) as [|x l] eqn:E; [destruct (split_not_nil _ _ E)|]. cbn. lia.
  - cbn [orb]. rewrite <- IH. destruct (split dot p) as [|x l] eqn:E; [destruct (split_not_nil _ _ E)|]. reflexivity.
Qed.

Lemma join_app_sep a b : a <> [] -> b <> [] -> join dot (a ++ b) = (join dot a ++ String dot (join dot b))%string.
Proof.
  intros Ha Hb. induction a as [|x a IH]; [congruence|]. destruct a as [|y a].
  - destruct b as [|z b]; [congruence|]. reflexivity.
  - change (join dot ((x :: y :: a) ++ b)) with (x ++ String dot (join dot ((y :: a) ++ b)))%string. rewrite IH by discriminate.
    change (join dot (x :: y :: a)) with (x ++ String dot (join dot (y :: a)))%string. rewrite sapp_assoc. reflexivity.
Qed.

Lemma sp_anc_dot p n : sp_anc p n <-> dot_ancestor p n.
Proof.
  unfold sp_anc, dot_ancestor. split.
  - intros (l & Hl & E & H2). split; [|apply split_two, H2]. exists (join dot l).
    rewrite <- (join_split dot n), E, join_app_sep by (try exact Hl; intros T; destruct (split_not_nil _ _ T)).
    rewrite join_split. reflexivity.
  - intros ((pre & ->) & H2). exists (split dot pre). split; [apply split_not_nil|]. split; [apply split_app_sep|apply split_two, H2].
Qed.

Lemma no_escape_dot p n : no_escape n -> (dot_ancestor p n <-> proper_ancestor p n).
Proof.
  intros Hn. rewrite <- sp_anc_dot. unfold sp_anc, proper_ancestor. rewrite (dns_labels_split n Hn). split; intros (l & Hl & E & H2).
  - assert (Hp : no_escape p).
    { pose proof (split_pieces_no_escape n Hn) as F. rewrite E in F. apply Forall_app in F. destruct F as [_ F].
      unfold no_escape. rewrite <- (join_split dot p). rewrite contains_join by (intro D; discriminate D). clear -F.
      induction F as [|y k Hy _ IH]; [reflexivity|]. cbn [existsb]. unfold no_escape in Hy. rewrite Hy. exact IH. }
    exists l. rewrite (dns_labels_split p Hp). auto.
  - assert (Hp : no_escape p).
    { pose proof (split_pieces_no_escape n Hn) as F2. rewrite E in F2. apply Forall_app in F2.
      destruct F2 as [_ F2]. exact (proj1 (labels_esc_no_escape _ p _ (Nat.le_refl _) F2)). }
    exists l. rewrite (dns_labels_split p Hp) in *. auto.
Qed.

(* the elements of the list are the ancestors, nearest first *)
Lemma anc_list_ok name s : In s (anc_lists name) ->
  split dot (join dot s) = s /\ (2 <= length s)%nat /\ exists x pre, split dot name = x :: pre ++ s.
Proof.
  intros H. unfold anc_lists in H. apply suffixes_iff in H. destruct H as (pre & E & Hl).
  pose proof (split_no_sep dot name) as F.
  destruct (split dot name) as [|x l] eqn:Sp; [destruct (split_not_nil _ _ Sp)|]. cbn [List.tl] in E. subst l.
  inversion F; subst. apply Forall_app in H2.
  split; [|split; [assumption|eauto]].
  apply split_join_id; [destruct s; [cbn in Hl; lia|discriminate]|tauto].
Qed.

Lemma ancestor_in name p : sp_anc p name -> exists s, In s (anc_lists name) /\ join dot s = p /\ split dot p = s.
Proof.
  intros (l & Hl & E & H2).
  exists (split dot p). split; [|split; [apply join_split|reflexivity]].
  unfold anc_lists. apply suffixes_iff. destruct l as [|x l]; [congruence|]. rewrite E. cbn [List.tl app]. exists l. auto.
Qed.

Lemma in_ancestor name s : In s (anc_lists name) -> sp_anc (join dot s) name.
Proof.
  intros H. destruct (anc_list_ok name s H) as (E & H2 & x & pre & E2). exists (x :: pre).
  rewrite E, E2. split; [discriminate|]. split; [reflexivity|assumption].
Qed.

Lemma firstn_split_sorted {A} n (l : list A) a s b : firstn n l = a ++ s :: b -> exists b', l = a ++ s :: b ++ b'.
Proof. intros E. exists (skipn n l). rewrite <- (firstn_skipn n l) at 1. rewrite E, <- app_assoc. reflexivity. Qed.

Section Served.
Variable ipString : bytes -> string.
Variable pack : msg -> option bytes.
Variable unpack : bytes -> option msg.
Variable hash : lruKey -> N.
Hypothesis ip_ok : ip_text_ok ipString.
Notation keyq := (lruKeyFromQuery ipString).
Notation REPOK := (OK hash).
Notation VIEW := (view ipString unpack).

Lemma harden_view_first s q now names r :
  harden_view ipString unpack s q now names = Some r <->
  r = (nxdomain q, false) /\ exists pre p post a pf, names = pre ++ p :: post /\
    VIEW s (with_name q p) now = Some (a, pf) /\ m_rcode a = RcodeNameError /\
    Forall (fun p' => VIEW s (with_name q p') now = None) pre.
Proof.
  induction names as [|n names IH]; cbn [harden_view].
  - split; [discriminate|]. intros (_ & pre & p & post & a & pf & E & _). destruct pre; discriminate.
  - destruct (VIEW s (with_name q n) now) as [[a pf]|] eqn:V.
    + destruct (N.eqb_spec (m_rcode a) RcodeNameError) as [E|E].
      * split.
        -- intros [= <-]. split; [reflexivity|]. exists [], n, names, a, pf. repeat split; auto.
        -- intros [-> _]. reflexivity.
      * split; [discriminate|]. intros (-> & pre & p & post & a' & pf' & En & V' & Hr & Hpre). exfalso.
        destruct pre as [|n' pre]; cbn in En; injection En as -> En.
        -- rewrite V in V'. congruence.
        -- inversion Hpre; subst. congruence.
    + rewrite IH. split.
      * intros (-> & pre & p & post & a & pf & -> & V' & Hr & Hpre). split; [reflexivity|].
        exists (n :: pre), p, post, a, pf. repeat split; auto.
      * intros (-> & pre & p & post & a & pf & En & V' & Hr & Hpre). split; [reflexivity|].
        destruct pre as [|n' pre]; cbn in En; injection En as -> En; [congruence|].
        inversion Hpre; subst. exists pre, p, post, a, pf. repeat split; auto.
Qed.

(* in terms of ancestors *)
Lemma harden_view_anc s q now name r : 
  harden_view ipString unpack s q now (ancestors name) = Some r <->
  r = (nxdomain q, false) /\ exists p a pf, sp_anc p name /\
    VIEW s (with_name q p) now = Some (a, pf) /\ m_rcode a = RcodeNameError /\
    (forall p', sp_anc p' name -> sp_anc p p' -> VIEW s (with_name q p') now = None).
Proof.
  rewrite harden_view_first, ancestors_map. split; intros (-> & H); split; try reflexivity.
  - destruct H as (pre & p & post & a & pf & E & V & Hr & Hpre).
    apply map_eq_app in E. destruct E as (l1 & l2 & E & E1 & E2). apply map_eq_cons in E2. destruct E2 as (s0 & l3 & -> & Ep & E3).
    assert (Hs0 : In s0 (anc_lists name)) by (rewrite E; apply in_or_app; right; left; reflexivity).
    exists p, a, pf. repeat split; auto.
    + rewrite <- Ep. apply in_ancestor; assumption.
    + intros p' Hp' Hpp'. destruct (ancestor_in name p' Hp') as (s' & Hs' & Ej & El).
      assert (length s0 < length s')%nat.
      { destruct Hpp' as (l & Hl & Elp & _). rewrite El in Elp. destruct (anc_list_ok name s0 Hs0) as (Es0 & _). rewrite <- Ep, Es0 in Elp.
        rewrite Elp, app_length. destruct l; [congruence|cbn; lia]. }
      rewrite E in Hs'. apply in_app_or in Hs'. destruct Hs' as [Hs'|[->|Hs']]; [|lia|].
      * rewrite Forall_forall in Hpre. apply Hpre. rewrite <- E1, <- Ej. apply in_map. exact Hs'.
      * exfalso. unfold anc_lists in E. apply firstn_split_sorted in E. destruct E as (b' & E).
        pose proof (suffixes_sorted _ _ _ _ E s') as Hlt. specialize (Hlt ltac:(apply in_or_app; left; exact Hs')). lia.
  - destruct H as (p & a & pf & Hp & V & Hr & Hc). destruct (ancestor_in name p Hp) as (s0 & Hs0 & Ej & El).
    apply in_split in Hs0. destruct Hs0 as (l1 & l2 & E).
    exists (map (join dot) l1), p, (map (join dot) l2), a, pf. rewrite E, map_app. cbn [map]. rewrite Ej. repeat split; auto.
    apply Forall_forall. intros p' Hp'. apply in_map_iff in Hp'. destruct Hp' as (s' & <- & Hs').
    assert (Hin : In s' (anc_lists name)) by (rewrite E; apply in_or_app; left; exact Hs').
    apply Hc; [apply in_ancestor; assumption|].
    apply in_split in Hs'. destruct Hs' as (l3 & l4 & ->). rewrite <- app_assoc in E. cbn [app] in E.
    destruct (anc_list_ok name s' Hin) as (Es' & _ & x & pre & Ex).
    assert (Hin0 : In s0 (anc_lists name)) by (rewrite E; apply in_or_app; right; right; apply in_or_app; right; left; reflexivity).
    destruct (anc_list_ok name s0 Hin0) as (Es0 & H2 & x0 & pre0 & Ex0).
    assert (Hlen : (length s0 < length s')%nat).
    { unfold anc_lists in E. apply firstn_split_sorted in E. destruct E as (b' & E).
      apply (suffixes_sorted _ _ _ _ E). apply in_or_app. left. apply in_or_app. right. left. reflexivity. }
    rewrite Ex in Ex0. injection Ex0 as _ Ex0. exists (firstn (length s' - length s0) s').
    rewrite Es', El. split; [|split; [|congruence]].
    + intro Hf. apply (f_equal (@length _)) in Hf. rewrite firstn_length in Hf. cbn in Hf. lia.
    + rewrite <- (firstn_skipn (length s' - length s0) s') at 1. f_equal.
      assert (L : (length pre + length s' = length pre0 + length s0)%nat) by (rewrite <- !app_length; congruence).
      assert (Hk : skipn (length pre0 - length pre) s' = s0).
      { assert (Hsk : skipn (length pre0) (pre ++ s') = s0). { rewrite Ex0. rewrite skipn_app, skipn_all, Nat.sub_diag. reflexivity. }
        rewrite skipn_app in Hsk. rewrite (skipn_all2 pre) in Hsk by lia. exact Hsk. }
      replace (length s' - length s0)%nat with (length pre0 - length pre)%nat by lia. exact Hk.
Qed.

(** ** The theorems about histories *)
Variable o : options.

Lemma peek_view c s q now : REPOK c s -> query_ok q -> peek ipString unpack hash c q now = VIEW s q now.
Proof. intros H Hq. unfold peek. destruct (ok_lookup ipString unpack hash ip_ok c s q now H Hq) as (c' & s' & E & _). rewrite E. reflexivity. Qed.

Lemma exec_total cap l : Forall event_ok l -> exists c s,
  exec_all ipString pack unpack hash o (cache_new cap) l = Some c /\ REPOK c s /\ maxItems _ c = cap /\ from_history ipString pack o l s.
Proof.
  intros H. destruct (ok_exec_all ipString pack unpack hash ip_ok o l (cache_new cap) [] [] (ok_new hash cap)) as (c & s & E & O' & M & F); auto.
  { intros k b []. }
  exists c, s. auto.
Qed.


Lemma peek_source cap l c q now r pf : opts_ok o -> Forall event_ok l -> faithful pack unpack l -> query_ok q ->
  exec_all ipString pack unpack hash o (cache_new cap) l = Some c ->
  peek ipString unpack hash c q now = Some (r, pf) -> hit_source pack o l q now r.
Proof.
  intros Ho Hl Hf Hq E P. destruct (exec_total cap l Hl) as (c' & s & E' & O' & M & F). assert (c' = c) by congruence. subst c'.
  rewrite (peek_view c s q now O' Hq) in P. eapply (view_source ipString pack unpack); eauto.
Qed.

Lemma ancestor_len p n : sp_anc p n -> (String.length p <= String.length n)%nat.
Proof.
  intros Hp. destruct (ancestor_in n p Hp) as (s' & Hs' & Ej & El).
  pose proof (ancestors_len n) as A. rewrite Forall_forall in A. apply A. rewrite ancestors_map, <- Ej. apply in_map, Hs'.
Qed.

Lemma is_flush_iff q : is_flush o q = true <-> flush_query o q.
Proof.
  unfold is_flush, flush_query. destruct (String.eqb_spec (o_flush o) ""); cbn [negb andb]; [split; [discriminate|tauto]|].
  destruct (m_question q) as [|x l]; [split; [discriminate|intros (_ & ? & ? & ? & _); discriminate]|].
  destruct (String.eqb_spec (o_flush o) (q_name x)); split; try discriminate; [intros _; eauto 6|reflexivity|].
  intros (_ & x' & l' & [= <- <-] & E). congruence.
Qed.

(* what a lookup returns *)
Lemma lookup_cases cap l c f q now : Forall event_ok l -> query_ok q ->
  exec_all ipString pack unpack hash o (cache_new cap) l = Some c ->
  exists c' r, resolve_lookup ipString unpack hash o f q now c = Some (c', r) /\
  match r with
  | Some (a, Flushed) => flush_query o q /\ a = set_reply empty_msg q
  | Some (a, _) => ~ flush_query o q /\
      ((exists a0 pf, peek ipString unpack hash c q now = Some (a0, pf) /\ a = f a0) \/
       (exists x t, o_harden o = true /\ peek ipString unpack hash c q now = None /\ m_question q = x :: t /\ a = nxdomain q /\
         (exists p a0 pf, sp_anc p (q_name x) /\ peek ipString unpack hash c (with_name q p) now = Some (a0, pf) /\
            m_rcode a0 = RcodeNameError /\
            forall p', sp_anc p' (q_name x) -> sp_anc p p' -> peek ipString unpack hash c (with_name q p') now = None)))
  | None => ~ flush_query o q /\ peek ipString unpack hash c q now = None /\
      (o_harden o = true -> forall x t, m_question q = x :: t -> forall p a0 pf, sp_anc p (q_name x) ->
         peek ipString unpack hash c (with_name q p) now = Some (a0, pf) -> m_rcode a0 = RcodeNameError ->
         exists p' a1 pf1, sp_anc p' (q_name x) /\ sp_anc p p' /\ peek ipString unpack hash c (with_name q p') now = Some (a1, pf1))
  end.
Proof.
  intros Hl Hq E. destruct (exec_total cap l Hl) as (c' & s & E' & O' & M & F). assert (c' = c) by congruence. subst c'.
  destruct (ok_resolve_lookup ipString pack unpack hash ip_ok o c s f q now O' Hq) as (c1 & s1 & r & E1 & _ & _ & _ & R).
  exists c1, r. split; [exact E1|].
  assert (PV : forall x t p, m_question q = x :: t -> sp_anc p (q_name x) -> peek ipString unpack hash c (with_name q p) now = VIEW s (with_name q p) now).
  { intros x t p Ex Hp. apply (peek_view c s); [assumption|]. apply with_name_ok; [assumption|].
    pose proof (ancestor_len p _ Hp) as L. destruct Hq as (_ & Hqf & _). rewrite Ex in Hqf. inversion Hqf as [|? ? (_ & _ & L2) _]; subst. lia. }
  assert (AV : forall a pf, answer_view ipString unpack o s f q now = Some (a, pf) ->
      ((exists a0 pf, peek ipString unpack hash c q now = Some (a0, pf) /\ a = f a0) \/
       (exists x t, o_harden o = true /\ peek ipString unpack hash c q now = None /\ m_question q = x :: t /\ a = nxdomain q /\
         (exists p a0 pf, sp_anc p (q_name x) /\ peek ipString unpack hash c (with_name q p) now = Some (a0, pf) /\
            m_rcode a0 = RcodeNameError /\
            forall p', sp_anc p' (q_name x) -> sp_anc p p' -> peek ipString unpack hash c (with_name q p') now = None)))).
  { intros a pf. unfold answer_view. rewrite <- (peek_view c s q now O' Hq). destruct (peek ipString unpack hash c q now) as [[a0 pf0]|] eqn:P.
    - intros [= <- <-]. left. eauto.
    - destruct (o_harden o) eqn:Hh; [|discriminate]. destruct (m_question q) as [|x t] eqn:Ex; [discriminate|]. intros HV. right.
      exists x, t. repeat split; auto.
      + apply harden_view_first in HV. destruct HV as [[= -> _] _]. reflexivity.
      + apply (harden_view_anc s q now _ _) in HV. destruct HV as (_ & p & a0 & pf0 & Hp & V & Hr & Hc).
        exists p, a0, pf0. rewrite (PV x t p eq_refl Hp). repeat split; auto.
        intros p' Hp' Hpp'. rewrite (PV x t p' eq_refl Hp'). auto. }
  destruct r as [[a [| |mn]]|].
  - destruct R as [R1 R2]. split; [apply is_flush_iff; exact R1|exact R2].
  - destruct R as (pf & R1 & R2). split; [rewrite <- is_flush_iff; congruence|eauto].
  - destruct R as (pf & R1 & R2). split; [rewrite <- is_flush_iff; congruence|eauto].
  - destruct R as [R1 R2]. split; [rewrite <- is_flush_iff; congruence|].
    unfold answer_view in R2. rewrite <- (peek_view c s q now O' Hq) in R2. destruct (peek ipString unpack hash c q now) as [[a0 pf0]|] eqn:P; [discriminate|].
    split; [reflexivity|]. intros Hh x t Ex p a0 pf Hp P0 Hr. rewrite Hh, Ex in R2.
    rewrite (PV x t p Ex Hp) in P0.
    (* the first hit of the loop is closer *)
    destruct (ancestor_in _ p Hp) as (s0 & Hs0 & Ej & El). clear R1 AV E1.
    assert (exists p', In p' (ancestors (q_name x)) /\ VIEW s (with_name q p') now <> None /\ exists a1 pf1, VIEW s (with_name q p') now = Some (a1, pf1) /\ m_rcode a1 <> RcodeNameError /\
        exists pre post, ancestors (q_name x) = pre ++ p' :: post /\ ~ In p pre) as G.
    { assert (Hin : In p (ancestors (q_name x))) by (rewrite ancestors_map, <- Ej; apply in_map, Hs0).
      clear - R2 P0 Hr Hin. induction (ancestors (q_name x)) as [|n names IH]; [contradiction|]. cbn [harden_view] in R2.
      destruct (VIEW s (with_name q n) now) as [[a1 pf1]|] eqn:V.
      - destruct (N.eqb_spec (m_rcode a1) RcodeNameError); [discriminate|]. exists n. split; [left; reflexivity|]. split; [congruence|].
        exists a1, pf1. repeat split; auto. exists [], names. split; [reflexivity|auto].
      - destruct Hin as [->|Hin]; [congruence|]. destruct (IH R2 Hin) as (p' & I1 & V1 & a1 & pf1 & V2 & Hr1 & pre & post & Epp & Hnp).
        exists p'. split; [right; exact I1|]. split; [congruence|]. exists a1, pf1. repeat split; auto.
        exists (n :: pre), post. split; [cbn; congruence|]. intros [->|Hp]; [congruence|contradiction]. }
    destruct G as (p' & Hin' & _ & a1 & pf1 & V1 & Hr1 & pre & post & Epp & Hnp).
    rewrite ancestors_map in Hin'. apply in_map_iff in Hin'. destruct Hin' as (s' & Ej' & Hs').
    assert (Hp' : sp_anc p' (q_name x)) by (rewrite <- Ej'; apply in_ancestor; assumption).
    exists p', a1, pf1. split; [exact Hp'|]. split; [|rewrite (PV x t p' Ex Hp'); exact V1].
    (* p' is closer than p *)
    rewrite ancestors_map in Epp. apply map_eq_app in Epp. destruct Epp as (l1 & l2 & Ea & E1 & E2). apply map_eq_cons in E2. destruct E2 as (s2 & l3 & -> & Ep2 & E3).
    assert (Hs2 : In s2 (anc_lists (q_name x))) by (rewrite Ea; apply in_or_app; right; left; reflexivity).
    destruct (anc_list_ok _ s2 Hs2) as (Es2 & L2 & x2 & pre2 & Ex2).
    destruct (anc_list_ok _ s0 Hs0) as (Es0 & L0 & x0 & pre0 & Ex0).
    assert (Hlen : (length s0 < length s2)%nat).
    { rewrite Ea in Hs0. apply in_app_or in Hs0. destruct Hs0 as [Hs0|[->|Hs0]].
      - exfalso. apply Hnp. rewrite <- E1, <- Ej. apply in_map, Hs0.
      - exfalso. rewrite Ej in Ep2. subst p'. congruence.
      - unfold anc_lists in Ea. apply firstn_split_sorted in Ea. destruct Ea as (b' & Ea).
        apply (suffixes_sorted _ _ _ _ Ea). apply in_or_app. left. exact Hs0. }
    rewrite Ex2 in Ex0. injection Ex0 as _ Ex0. exists (firstn (length s2 - length s0) s2).
    rewrite <- Ep2, Es2, El. split; [|split; [|assumption]].
    + intro Hf. apply (f_equal (@length _)) in Hf. rewrite firstn_length in Hf. cbn in Hf. lia.
    + rewrite <- (firstn_skipn (length s2 - length s0) s2) at 1. f_equal.
      assert (L : (length pre2 + length s2 = length pre0 + length s0)%nat) by (rewrite <- !app_length; congruence).
      assert (Hk : skipn (length pre0 - length pre2) s2 = s0).
      { assert (Hsk : skipn (length pre0) (pre2 ++ s2) = s0). { rewrite Ex0. rewrite skipn_app, skipn_all, Nat.sub_diag. reflexivity. }
        rewrite skipn_app in Hsk. rewrite (skipn_all2 pre2) in Hsk by lia. exact Hsk. }
      replace (length s2 - length s0)%nat with (length pre0 - length pre2)%nat by lia. exact Hk.
Qed.
End Served.
