(** The validating resolver as a whole: the outcome of every query, whatever runs beside it. *)
From Verif Require Import Base Base_proofs Bytes Dns Name_model Name_spec Name_proofs Denial_model Denial_spec Denial_proofs Keystore_model Dnssec_model Dnssec_spec Dnssec_proofs Dnssec_sys.
From Coq Require Import ZArith ZifyBool ZifyNat ZifyN.
Open Scope N_scope.

Section MAIN.
Variable verify : rr -> rr -> list rr -> bool.
Variable keyTag : rr -> N.
Variable toDS : rr -> N -> option string.
Variable hashName : string -> N -> N -> string -> string.
Variable anchors : list anchor.
(** The answers of the resolver *)
Variable W : msg -> result -> Prop.
Notation validated := (validated verify keyTag toDS hashName anchors).
Notation proven_unsigned := (proven_unsigned verify keyTag toDS hashName anchors).
Notation trusted := (trusted verify keyTag toDS anchors).
Notation wp := (wp verify keyTag toDS anchors).
Notation valid_s := (valid_s verify keyTag toDS hashName anchors).
Notation insecure_s := (insecure_s verify keyTag toDS hashName anchors).

Definition strip_for (q : msg) (qtype : N) (m : msg) : msg := stripDNSSEC m (set_do q) (had_edns0 q) qtype.
Definition outcome_s (logOnly : bool) (q a : msg) (qtype T : N) (out : result) : Prop :=
  (m_rcode a <> 0 /\ m_rcode a <> 3 /\ out = Ans (strip_for q qtype a)) \/
  ((m_rcode a = 0 \/ m_rcode a = 3) /\
   ((valid_s a T /\ out = Ans (strip_for q qtype (set_ad true a))) \/
    (insecure_s a T /\ out = Ans (strip_for q qtype a)) \/
    (logOnly = false /\ out = Ans (servfail q)) \/
    (logOnly = true /\ out = Ans (strip_for q qtype a)))).
Lemma after_ok logOnly q a qtype T : wp (outcome_s logOnly q a qtype) T (after_answer verify keyTag toDS hashName logOnly q a qtype).
Proof.
  unfold after_answer. destruct (negb (m_rcode a =? RcodeSuccess) && negb (m_rcode a =? RcodeNameError)) eqn:E.
  - cbn. left. apply andb_prop in E. destruct E as [E1 E2]. apply negb_true_iff, N.eqb_neq in E1, E2. auto.
  - assert (RC : m_rcode a = 0 \/ m_rcode a = 3).
    { apply andb_false_iff in E. destruct E as [E|E]; apply negb_false_iff, N.eqb_eq in E; auto. }
    eapply wp_seq; [apply validate_ok|]. intros T1 r L1 P. cbv beta in P. unfold outcome_s. destruct r as [[]|]; cbn.
    + right. split; [exact RC|]. right. left. auto.
    + destruct logOnly; cbn; right; (split; [exact RC|]); right; right; auto.
    + right. split; [exact RC|]. left. auto.
Qed.
Lemma outcome_show logOnly q a qtype T out : message_ok a -> outcome_s logOnly q a qtype T out ->
  verdict verify keyTag toDS hashName anchors (strip_for q qtype) logOnly q a T out.
Proof.
  intros M [H|[RC H]]; [left; exact H|]. right. split; [exact RC|]. destruct H as [[V H]|[[I H]|H]]; [left|right; left|right; right; exact H].
  - split; [apply valid_show; assumption|exact H].
  - split; [apply insecure_show; assumption|exact H].
Qed.
Definition resolve_post (logOnly : bool) (q : msg) (T : N) (out : result) : Prop :=
  match out with Ans m => exists qu a, head (m_question q) = Some qu /\ outcome_s logOnly q a (q_type qu) T out | _ => True end.
Lemma resolve_ok logOnly q T : wp (resolve_post logOnly q) T (resolve verify keyTag toDS hashName logOnly q).
Proof.
  unfold resolve. destruct (m_question q) as [|qu qs] eqn:Q; [exact I|]. cbn [wp]. intros res T1 L1. destruct res as [a| |e]; [|exact I|exact I].
  eapply wp_conseq; [apply after_ok|]. intros T2 out _ O. unfold resolve_post. destruct out as [m| |e]; auto. exists qu, a. rewrite Q. auto.
Qed.

(** ** Runs *)
Definition start {R} (t : N) (ps : list (prog R)) : sys R := Sys t (setAnchors t anchors) ps.
Lemma Forall2_map {A R} (f : A -> prog R) (Q : A -> N -> R -> Prop) l : (forall x T, wp (Q x) T (f x)) -> Forall2 (fun Q p => forall T, wp Q T p) (map Q l) (map f l).
Proof. intros H. induction l as [|x l IH]; cbn; constructor; auto. Qed.
Lemma run_map {A R} (f : A -> prog R) (Q : A -> N -> R -> Prop) l t st i x p : (forall x T, wp (Q x) T (f x)) -> steps W (start t (map f l)) st ->
  nth_error l i = Some x -> nth_error (s_threads st) i = Some p -> exists T0, T0 <= s_time st /\ wp (Q x) T0 p.
Proof.
  intros H S EX EP. destruct (run_ok verify keyTag toDS anchors W (map Q l) t (map f l) st i p (Forall2_map f Q l H) S EP) as (Q' & T0 & EQ & L & WP).
  rewrite nth_error_map, EX in EQ. injection EQ as <-. exists T0. auto.
Qed.
Lemma answer_mono a T T' : T <= T' -> valid_s a T -> valid_s a T'.
Proof.
  intros L [H1 H2]. split.
  - intros E. destruct (H1 E) as (q & HQ & rs & HR & D). exists q. split; [exact HQ|]. exists rs. split; [|exact D]. intros r I. destruct (HR r I) as (g & IG & RG & AU). exists g. split; [exact IG|]. split; [exact RG|]. exact (auth_sigs_mono _ _ _ _ _ _ _ _ _ L AU).
  - intros E g I. exact (auth_sigs_mono _ _ _ _ _ _ _ _ _ L (H2 E g I)).
Qed.
Lemma nods_mono z T T' : T <= T' -> nods verify keyTag toDS hashName anchors z T -> nods verify keyTag toDS hashName anchors z T'.
Proof.
  intros L [(zsk & ksk & A & B)|H]; [left|right; exact (insec_mono _ _ _ _ _ _ _ _ L H)]. exists zsk, ksk. split; [exact (trusted_mono _ _ _ _ _ _ _ _ _ L A)|exact (denies_mono _ _ _ _ _ _ _ L B)].
Qed.
Lemma cut_mono n T T' : T <= T' -> cut_above verify keyTag toDS hashName anchors n T -> cut_above verify keyTag toDS hashName anchors n T'.
Proof. intros L (z & I & H). exists z. split; [exact I|exact (nods_mono _ _ _ L H)]. Qed.
Lemma insecure_mono a T T' : T <= T' -> insecure_s a T -> insecure_s a T'.
Proof.
  intros L [H1 H2]. split.
  - intros E. destruct (H1 E) as (q & HQ & C). exists q. split; [exact HQ|exact (cut_mono _ _ _ L C)].
  - intros E. destruct (H2 E) as (g & I & [C|(s & IS & SUB & IN)]); exists g; (split; [exact I|]); [left; exact (cut_mono _ _ _ L C)|right]. exists s. split; [exact IS|]. split; [exact SUB|exact (insec_mono _ _ _ _ _ _ _ _ L IN)].
Qed.
Lemma outcome_mono logOnly q a qtype T T' out : T <= T' -> outcome_s logOnly q a qtype T out -> outcome_s logOnly q a qtype T' out.
Proof.
  intros L [H|[RC H]]; [left; exact H|]. right. split; [exact RC|]. destruct H as [[V H]|[[I H]|H]]; [left|right; left|right; right; exact H].
  - split; [exact (answer_mono _ _ _ L V)|exact H].
  - split; [exact (insecure_mono _ _ _ L I)|exact H].
Qed.
(** C43 *)
Definition job_ok (logOnly : bool) (st : sys result) (q : msg) (p : prog result) : Prop :=
  p = resolve verify keyTag toDS hashName logOnly q \/ p = Ret Drop \/ (exists e, p = Ret (Err e)) \/
  exists qu a T0, head (m_question q) = Some qu /\ W (upstream_query q) (Ans a) /\ T0 <= s_time st /\ wp (outcome_s logOnly q a (q_type qu)) T0 p.
Lemma jobs_ok logOnly t0 qs st : steps W (start t0 (map (resolve verify keyTag toDS hashName logOnly) qs)) st ->
  store_ok verify keyTag toDS anchors (s_time st) (s_store st) /\ Forall2 (job_ok logOnly st) qs (s_threads st).
Proof.
  remember (start t0 _) as s0 eqn:E0. induction 1 as [s|s s1 s2 _ IH H]; subst.
  - split; [apply anchors_ok|]. cbn. induction qs as [|q qs IH]; cbn; constructor; auto. left. reflexivity.
  - destruct (IH eq_refl) as [S F]. clear IH. destruct H as [t t' s0 ts L|t s0 ts1 p ts2 s' p' P]; cbn in *.
    + split; [exact (store_mono _ _ _ _ _ _ _ L S)|]. eapply Forall2_impl; [|exact F]. intros q p [->|[->|[H|(qu & a & T0 & HQ & HW & L0 & W0)]]]; [left; reflexivity|right; left; reflexivity|right; right; left; exact H|].
      right. right. right. exists qu, a, T0. cbn in *. repeat split; auto. lia.
    + apply Forall2_app_inv_r in F. destruct F as (Q1 & Q2' & F1 & F2 & ->). inversion F2 as [|q ? Q2 ? J F3]; subst.
      assert (G : store_ok verify keyTag toDS anchors t s' /\ job_ok logOnly (Sys t s' (ts1 ++ p' :: ts2)) q p').
      { destruct J as [->|[->|[[e ->]|(qu & a & T0 & HQ & HW & L0 & W0)]]]; [|inversion P|inversion P|].
        - unfold resolve in P. destruct (m_question q) as [|qu rest] eqn:Q; [inversion P|]. inversion P as [u k r HW| | | | |]; subst. split; [exact S|]. destruct r as [a| |e]; [|right; left; reflexivity|right; right; left; eauto].
          right. right. right. exists qu, a, t. rewrite Q. cbn. repeat split; auto; [lia|]. apply after_ok.
        - cbn in L0. destruct (pstep_inv verify keyTag toDS anchors W _ t s0 p s' p' T0 S L0 W0 P) as (S' & T1 & L1 & W1). split; [exact S'|]. right. right. right. exists qu, a, T1. auto. }
      destruct G as [G1 G2]. split; [exact G1|]. apply Forall2_app; [exact F1|]. constructor; [exact G2|exact F3].
Qed.
(** What is answered depends on an answer of the resolver to the same query. *)
Lemma resolve_run logOnly t0 (qs : list msg) st i q m :
  steps W (start t0 (map (resolve verify keyTag toDS hashName logOnly) qs)) st ->
  nth_error qs i = Some q -> nth_error (s_threads st) i = Some (Ret (Ans m)) ->
  exists qu a, head (m_question q) = Some qu /\ W (upstream_query q) (Ans a) /\ (message_ok a -> verdict verify keyTag toDS hashName anchors (strip_for q (q_type qu)) logOnly q a (s_time st) (Ans m)).
Proof.
  intros S EQ EP. destruct (jobs_ok logOnly t0 qs st S) as [_ F]. destruct (Forall2_nth _ _ _ _ _ F EP) as (q' & EQ' & J). rewrite EQ in EQ'. injection EQ' as <-.
  destruct J as [E|[E|[[e E]|(qu & a & T0 & HQ & HW & L & O)]]]; [unfold resolve in E; destruct (m_question q); discriminate E|discriminate E|discriminate E|].
  exists qu, a. split; [exact HQ|]. split; [exact HW|]. intros M. apply outcome_show; [exact M|]. cbn in O. exact (outcome_mono _ _ _ _ _ _ _ L O).
Qed.
Lemma strip_ad q qtype m : m_ad (strip_for q qtype m) = m_ad m.
Proof. unfold strip_for, stripDNSSEC, update_edns0. destruct (set_do q); [reflexivity|]. destruct (had_edns0 q); reflexivity. Qed.
Lemma verdict_ad logOnly q a qtype T m : verdict verify keyTag toDS hashName anchors (strip_for q qtype) logOnly q a T (Ans m) -> m_ad m = true -> m_ad a = false ->
  validated a T /\ m = strip_for q qtype (set_ad true a).
Proof.
  intros H A N. assert (NS : m <> strip_for q qtype a) by (intros ->; rewrite strip_ad in A; congruence).
  destruct H as [(_ & _ & H)|[_ [[V H]|[[_ H]|[[_ H]|[_ H]]]]]]; injection H as H; try congruence.
  - split; [exact V|exact H].
  - subst m. discriminate A.
Qed.
(** C44 *)
Lemma chain_run t0 zones st i zone n zsk ksk :
  steps W (start t0 (map (buildChainOfTrust verify keyTag toDS hashName) zones)) st ->
  nth_error zones i = Some zone -> names zone n -> no_dots n -> nth_error (s_threads st) i = Some (Ret (inr (zsk, ksk))) ->
  trusted n zsk ksk (s_time st).
Proof.
  intros S EJ NM D EP. destruct (run_map _ (chain_post verify keyTag toDS hashName anchors) zones t0 st i _ _ (build_ok verify keyTag toDS hashName anchors) S EJ EP) as (T0 & L & WP).
  cbn in WP. destruct (names_canonical _ _ NM) as (_ & O & Ln & E). rewrite E in WP. apply trusted_show; auto. exact (trusted_mono _ _ _ _ _ _ _ _ _ L WP).
Qed.
Lemma store_run {A R} (f : A -> prog R) Q t0 l st zone n zsk ksk : (forall x T, wp (Q x) T (f x)) -> steps W (start t0 (map f l)) st -> names zone n -> no_dots n ->
  getDNSKEY (s_store st) (s_time st) zone = (zsk, ksk) -> zsk <> [] \/ ksk <> [] -> trusted n zsk ksk (s_time st).
Proof.
  intros H S NM D G NE. pose proof (run_store verify keyTag toDS anchors W (map Q l) t0 (map f l) st (Forall2_map f Q l H) S) as SO.
  destruct (get_ok verify keyTag toDS anchors _ _ _ zone zsk ksk SO G) as [[-> ->]|TR]; [destruct NE; congruence|]. destruct (names_canonical _ _ NM) as (E & O & Ln & _). rewrite E in TR. apply trusted_show; auto.
Qed.
Lemma resolve_store logOnly t0 qs st zone n zsk ksk : steps W (start t0 (map (resolve verify keyTag toDS hashName logOnly) qs)) st -> names zone n -> no_dots n ->
  getDNSKEY (s_store st) (s_time st) zone = (zsk, ksk) -> zsk <> [] \/ ksk <> [] -> trusted n zsk ksk (s_time st).
Proof. apply (store_run _ (resolve_post logOnly)). apply resolve_ok. Qed.
Lemma resolve_total logOnly t0 qs st i : steps W (start t0 (map (resolve verify keyTag toDS hashName logOnly) qs)) st -> nth_error (s_threads st) i <> Some Fuel.
Proof.
  intros S E. destruct (run_ok verify keyTag toDS anchors W _ t0 _ st i _ (Forall2_map _ (resolve_post logOnly) qs (resolve_ok logOnly)) S E) as (Q & T0 & _ & _ & WP). exact WP.
Qed.
Lemma trusted_anchor n zsk ksk T : trusted n zsk ksk T -> exists a, In a anchors /\ canonicalName (a_owner a) = "."%string.
Proof. induction 1 as [zsk ksk T k a I O _ _ _|l n pz pk zsk ksk T k ds d tag alg dt dg _ IH]; [eauto|exact IH]. Qed.
(** C45 *)
Lemma insecure_run t0 (answers : list msg) st i a :
  steps W (start t0 (map (validate verify keyTag toDS hashName) answers)) st ->
  nth_error answers i = Some a -> message_ok a -> nth_error (s_threads st) i = Some (Ret (Some Insecure)) -> proven_unsigned a (s_time st).
Proof.
  intros S EJ M EP. destruct (run_map _ (fun a T r => match r with None => valid_s a T | Some Insecure => insecure_s a T | Some Bogus => True end) answers t0 st i _ _ (validate_ok verify keyTag toDS hashName anchors) S EJ EP) as (T0 & L & WP).
  cbn in WP. apply insecure_show; [exact M|exact (insecure_mono _ _ _ L WP)].
Qed.
Lemma check_run t0 (ns : list string) st i s n :
  steps W (start t0 (map (checkInsecureDelegation verify keyTag toDS hashName) ns)) st ->
  nth_error ns i = Some s -> names s n -> no_dots n -> nth_error (s_threads st) i = Some (Ret (Some Insecure)) -> unsigned verify keyTag toDS hashName anchors n (s_time st).
Proof.
  intros S EJ NM D EP. destruct (run_map _ (fun name T r => r = Some Insecure -> cut_above verify keyTag toDS hashName anchors name T) ns t0 st i _ _ (checkInsecure_ok verify keyTag toDS hashName anchors) S EJ EP) as (T0 & L & WP).
  cbn in WP. apply (cut_show _ _ _ _ _ s n); auto. exact (cut_mono _ _ _ L (WP eq_refl)).
Qed.
End MAIN.

(** ** The key store on its own *)
Inductive store_op := Put (t : N) (zone : string) (keys : list rr) | PutDS (t : N) (zone : string) (ds : list rr).
Definition apply_op (s : store) (o : store_op) : store := match o with Put t z ks => addDNSKEY s t z ks | PutDS t z ds => addDS s t z ds end.
Definition run_ops (ops : list store_op) : store := fold_left apply_op ops [].
Lemma min_ttl_le rs r : In r rs -> min_ttl rs <= rr_ttl r.
Proof.
  unfold min_ttl. assert (G : forall l m, fold_left (fun ttl r => if rr_ttl r <? ttl then rr_ttl r else ttl) l m <= m /\ forall x, In x l -> fold_left (fun ttl r => if rr_ttl r <? ttl then rr_ttl r else ttl) l m <= rr_ttl x).
  { induction l as [|x l IH]; intros m; cbn [fold_left]; [split; [lia|contradiction]|]. destruct (IH (if rr_ttl x <? m then rr_ttl x else m)) as [A B]. destruct (N.ltb_spec (rr_ttl x) m); split; try lia; intros y [->|I]; try lia; auto. }
  intros I. apply (G rs MaxUint32), I.
Qed.
(** The last keys added for the zone, at the time given, and not used when one of them is past its TTL *)
Lemma keys_history ops zone : match e_keys (getItem (run_ops ops) zone) with
  | None => forall t z ks, In (Put t z ks) ops -> canonicalName z <> canonicalName zone
  | Some k => exists before t z ks after, ops = before ++ Put t z ks :: after /\ canonicalName z = canonicalName zone /\
                (forall t' z' ks', In (Put t' z' ks') after -> canonicalName z' <> canonicalName zone) /\ k = Keyset (filter (has_flags 256) ks) (filter (has_flags 257) ks) (t + min_ttl ks)
  end.
Proof.
  unfold run_ops. induction ops as [|o ops IH] using rev_ind; [cbn; intros t z ks []|]. rewrite fold_left_app. cbn [fold_left]. set (s := fold_left apply_op ops []) in *.
  destruct o as [t z ks|t z ds]; cbn [apply_op]; unfold addDNSKEY, addDS; rewrite getItem_cons; destruct (String.eqb_spec (canonicalName z) (canonicalName zone)) as [E|E]; cbn [e_keys].
  - exists ops, t, z, ks, []. split; [reflexivity|]. split; [exact E|]. split; [intros ? ? ? []|reflexivity].
  - destruct (e_keys (getItem s zone)) as [k|].
    + destruct IH as (b & t1 & z1 & k1 & a & EO & EC & HA & EK). exists b, t1, z1, k1, (a ++ [Put t z ks]). rewrite EO, <- app_assoc. split; [reflexivity|]. split; [exact EC|]. split; [|exact EK].
      intros t' z' ks' I. apply in_app_or in I. destruct I as [I|[[= <- <- <-]|[]]]; [exact (HA _ _ _ I)|exact E].
    + intros t' z' ks' I. apply in_app_or in I. destruct I as [I|[[= <- <- <-]|[]]]; [exact (IH _ _ _ I)|exact E].
  - rewrite (getItem_canon s z zone E). destruct (e_keys (getItem s zone)) as [k|].
    + destruct IH as (b & t1 & z1 & k1 & a & EO & EC & HA & EK). exists b, t1, z1, k1, (a ++ [PutDS t z ds]). rewrite EO, <- app_assoc. split; [reflexivity|]. split; [exact EC|]. split; [|exact EK].
      intros t' z' ks' I. apply in_app_or in I. destruct I as [I|[I|[]]]; [exact (HA _ _ _ I)|discriminate I].
    + intros t' z' ks' I. apply in_app_or in I. destruct I as [I|[I|[]]]; [exact (IH _ _ _ I)|discriminate I].
  - destruct (e_keys (getItem s zone)) as [k|].
    + destruct IH as (b & t1 & z1 & k1 & a & EO & EC & HA & EK). exists b, t1, z1, k1, (a ++ [PutDS t z ds]). rewrite EO, <- app_assoc. split; [reflexivity|]. split; [exact EC|]. split; [|exact EK].
      intros t' z' ks' I. apply in_app_or in I. destruct I as [I|[I|[]]]; [exact (HA _ _ _ I)|discriminate I].
    + intros t' z' ks' I. apply in_app_or in I. destruct I as [I|[I|[]]]; [exact (IH _ _ _ I)|discriminate I].
Qed.
Lemma cached_keys ops now zone zsk ksk : getDNSKEY (run_ops ops) now zone = (zsk, ksk) -> zsk <> [] \/ ksk <> [] ->
  exists before t z ks after, ops = before ++ Put t z ks :: after /\ canonicalName z = canonicalName zone /\
    (forall t' z' ks', In (Put t' z' ks') after -> canonicalName z' <> canonicalName zone) /\
    (forall k, In k ks -> now <= t + rr_ttl k) /\ zsk = filter (has_flags 256) ks /\ ksk = filter (has_flags 257) ks.
Proof.
  unfold getDNSKEY. pose proof (keys_history ops zone) as H. destruct (e_keys (getItem (run_ops ops) zone)) as [k|]; [|intros [= <- <-] [X|X]; congruence].
  destruct H as (b & t & z & ks & a & EO & EC & HA & ->). cbn [k_expires k_zsk k_ksk]. destruct (N.ltb_spec (t + min_ttl ks) now) as [L|L]; intros [= <- <-] NE; [destruct NE; congruence|].
  exists b, t, z, ks, a. split; [exact EO|]. split; [exact EC|]. split; [exact HA|]. split; [|auto]. intros k I. pose proof (min_ttl_le ks k I). lia.
Qed.

Section COROLLARIES.
Variable verify : rr -> rr -> list rr -> bool.
Variable keyTag : rr -> N.
Variable toDS : rr -> N -> option string.
Variable hashName : string -> N -> N -> string -> string.
Variable anchors : list anchor.
Variable W : msg -> result -> Prop.
Lemma ad_run logOnly t0 (qs : list msg) st i q m :
  (forall u a, W u (Ans a) -> message_ok a /\ m_ad a = false) ->
  steps W (start anchors t0 (map (resolve verify keyTag toDS hashName logOnly) qs)) st ->
  nth_error qs i = Some q -> nth_error (s_threads st) i = Some (Ret (Ans m)) -> m_ad m = true ->
  exists qu a, head (m_question q) = Some qu /\ W (upstream_query q) (Ans a) /\ (m_rcode a = 0 \/ m_rcode a = 3) /\
    validated verify keyTag toDS hashName anchors a (s_time st) /\ m = stripDNSSEC (set_ad true a) (set_do q) (had_edns0 q) (q_type qu).
Proof.
  intros HW S EQ EP AD. destruct (resolve_run verify keyTag toDS hashName anchors W logOnly t0 qs st i q m S EQ EP) as (qu & a & HQ & HA & V). destruct (HW _ _ HA) as [MO NA]. specialize (V MO).
  exists qu, a. split; [exact HQ|]. split; [exact HA|]. split.
  - destruct V as [(_ & _ & H)|[H _]]; [|exact H]. injection H as ->. rewrite strip_ad in AD. congruence.
  - exact (verdict_ad verify keyTag toDS hashName anchors logOnly q a (q_type qu) (s_time st) m V AD NA).
Qed.
Lemma bogus_run t0 (qs : list msg) st i q m :
  (forall u a, W u (Ans a) -> message_ok a) ->
  steps W (start anchors t0 (map (resolve verify keyTag toDS hashName false) qs)) st ->
  nth_error qs i = Some q -> nth_error (s_threads st) i = Some (Ret (Ans m)) ->
  (forall a, W (upstream_query q) (Ans a) -> (m_rcode a = 0 \/ m_rcode a = 3) /\ ~ validated verify keyTag toDS hashName anchors a (s_time st) /\ ~ proven_unsigned verify keyTag toDS hashName anchors a (s_time st)) ->
  m = servfail q.
Proof.
  intros HW S EQ EP B. destruct (resolve_run verify keyTag toDS hashName anchors W false t0 qs st i q m S EQ EP) as (qu & a & HQ & HA & V). specialize (V (HW _ _ HA)). destruct (B a HA) as (RC & NV & NU).
  destruct V as [(N0 & N3 & _)|[_ [[X _]|[[X _]|[[_ H]|[H _]]]]]]; [destruct RC; contradiction|contradiction|contradiction|injection H as H; exact H|discriminate H].
Qed.
End COROLLARIES.
Lemma cached_flagged ops now zone zsk ksk : getDNSKEY (run_ops ops) now zone = (zsk, ksk) -> zsk <> [] \/ ksk <> [] ->
  exists before t z ks after, ops = before ++ Put t z ks :: after /\ canonicalName z = canonicalName zone /\
    (forall t' z' ks', In (Put t' z' ks') after -> canonicalName z' <> canonicalName zone) /\
    (forall k, In k ks -> now <= t + rr_ttl k) /\ zsk = filter (flagged 256) ks /\ ksk = filter (flagged 257) ks.
Proof.
  intros G N. destruct (cached_keys ops now zone zsk ksk G N) as (b & t & z & ks & a & H).
  assert (F : forall f l, filter (has_flags f) l = filter (flagged f) l).
  { intros f l. apply filter_ext. intros r. unfold has_flags, flagged, key_flags. destruct (rr_data r); reflexivity. }
  rewrite !F in H. exists b, t, z, ks, a. exact H.
Qed.
