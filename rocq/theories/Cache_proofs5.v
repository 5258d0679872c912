(** The proofs in the form in which the theorems state them. *)
From Verif Require Import Base Base_proofs Bytes Bytes_proofs Dns Net Blob_model Blob_spec Blob_proofs
  Lru_model Lru_spec Lru_proofs Lru_proofs2 Cache_model Cache_spec Cache_proofs Cache_proofs2 Cache_proofs3 Cache_proofs4.
From Coq Require Import ZifyBool ZifyNat ZifyN.
Open Scope N_scope.

Notation sop := (fun o : op lruKey bytes => match o with Add _ _ k b => stored k b | _ => True end).

Lemma stored_good k b : stored k b -> good _ _ matchesKey k b.
Proof. intros (m & w & Kok & Hb). eapply good_blob; eauto. Qed.
Lemma stored_ops ops : Forall sop ops -> Forall (op_good lruKey bytes matchesKey) ops.
Proof. intros H. eapply Forall_impl; [|exact H]. intros [k b| | | |] Hs; cbn; auto. apply stored_good, Hs. Qed.

Lemma lru_refines hash cap ops : Forall sop ops -> inj_on lruKey hash (keys_of lruKey bytes ops) ->
  exists c, run lruKey bytes matchesKey hash (cache_new cap) ops = Some (c, snd (spec_run lruKey bytes key_eq cap [] ops)).
Proof. intros H I. apply run_refines; [apply stored_ops, H|exact I]. Qed.

Lemma lru_sound hash cap ops k : Forall sop ops ->
    exists c outs r n,
      run lruKey bytes matchesKey hash (cache_new cap) (ops ++ [Get _ _ k]) = Some (c, outs ++ [(r, n)]) /\
      length outs = length ops /\
      (forall b, r = Some b -> current lruKey bytes key_eq None k ops = Some b) /\
      ((0 < cap)%Z -> Forall (fun o => (Z.of_nat (snd o) <= cap)%Z) (outs ++ [(r, n)])).
Proof. intros H. apply run_sound, stored_ops, H. Qed.

Lemma lru_survives hash cap pre mid k b :
    Forall sop (pre ++ Add lruKey bytes k b :: mid ++ [Get _ _ k]) ->
    inj_on lruKey hash (keys_of lruKey bytes (pre ++ Add _ _ k b :: mid ++ [Get _ _ k])) ->
    Forall (keeps lruKey bytes k b) mid ->
    ((cap <= 0)%Z \/ (Z.of_nat (length (others lruKey bytes key_eq k mid)) < cap)%Z) ->
    exists c outs n,
      run lruKey bytes matchesKey hash (cache_new cap) (pre ++ Add _ _ k b :: mid ++ [Get _ _ k]) = Some (c, outs ++ [(Some b, n)]).
Proof.
  intros H I Hk Hc. destruct (lru_refines hash cap _ H I) as (c & E).
  destruct (spec_survives lruKey bytes key_eq cap pre (Add _ _ k b) mid k b (or_introl eq_refl) Hk Hc) as (outs & n & Es).
  rewrite Es in E. eauto.
Qed.

(** C05 *)
Lemma cache_key_iff ipString q1 q2 : ip_text_ok ipString -> query_ok q1 -> query_ok q2 ->
  (lruKeyFromQuery ipString q1 = lruKeyFromQuery ipString q2 <-> same_question q1 q2) /\ lruKeyFromQuery ipString q1 <> None.
Proof.
  intros Hi H1 H2. split; [apply key_iff; assumption|]. destruct (query_key ipString Hi q1 H1) as (k & E & _). congruence.
Qed.

(** C06 *)
Lemma hit_is_fair ipString pack unpack hash o cap l c q now r pf :
  ip_text_ok ipString -> opts_ok o -> Forall event_ok l -> faithful pack unpack l -> query_ok q ->
  exec_all ipString pack unpack hash o (cache_new cap) l = Some c ->
  peek ipString unpack hash c q now = Some (r, pf) -> hit_source pack o l q now r.
Proof. intros Hi. intros. eapply peek_source; eauto. Qed.

Lemma cache_never_panics ipString pack unpack hash o cap l f q now :
  ip_text_ok ipString -> Forall event_ok l -> query_ok q ->
  exists c c' r, exec_all ipString pack unpack hash o (cache_new cap) l = Some c /\
    resolve_lookup ipString unpack hash o f q now c = Some (c', r).
Proof.
  intros Hi Hl Hq. destruct (exec_total ipString pack unpack hash Hi o cap l Hl) as (c & s & E & _).
  destruct (lookup_cases ipString pack unpack hash Hi o cap l c f q now Hl Hq E) as (c' & r & E' & _). eauto.
Qed.

Lemma reply_cases ipString pack unpack hash o cap l c f q now c' r eff :
  ip_text_ok ipString -> opts_ok o -> Forall event_ok l -> faithful pack unpack l -> query_ok q ->
  exec_all ipString pack unpack hash o (cache_new cap) l = Some c ->
  resolve_lookup ipString unpack hash o f q now c = Some (c', Some (r, eff)) ->
  (flush_query o q /\ r = set_reply empty_msg q) \/
  (exists r0, hit_source pack o l q now r0 /\ r = f r0) \/
  (o_harden o = true /\ peek ipString unpack hash c q now = None /\ r = nxdomain q).
Proof.
  intros Hi Ho Hl Hf Hq E R. destruct (lookup_cases ipString pack unpack hash Hi o cap l c f q now Hl Hq E) as (c1 & r1 & E1 & C).
  rewrite E1 in R. inversion R; subst. destruct eff.
  - left. exact C.
  - right. destruct C as [_ [(a0 & pf & P & ->)|(x & t & Hh & P & _ & -> & _)]]; [left; exists a0; split; [eapply hit_is_fair; eauto|reflexivity]|right; auto].
  - right. destruct C as [_ [(a0 & pf & P & ->)|(x & t & Hh & P & _ & -> & _)]]; [left; exists a0; split; [eapply hit_is_fair; eauto|reflexivity]|right; auto].
Qed.

Lemma fresh_answer_served ipString pack unpack hash o cap l c e q0 t0 a n w q now r :
  ip_text_ok ipString -> opts_ok o -> Forall event_ok (l ++ [e]) ->
  exec_all ipString pack unpack hash o (cache_new cap) (l ++ [e]) = Some c ->
  arrival e = Some (q0, t0, a) -> lifetime o a = Some n -> pack a = Some w -> unpack w = Some a ->
  query_ok q -> same_question q0 q -> (now <= t0 + Z.of_N n * a_second)%Z -> aged_msg q t0 now a r ->
  exists pf, peek ipString unpack hash c q now = Some (r, pf).
Proof. intros Hi. intros. eapply stored_hit; eauto. Qed.

(** C07 *)
Lemma truncated_not_stored ipString pack hash o q now a mn c : m_tc a = true ->
  resolve_finish ipString pack hash o q now (Ans a) c = Some (c, Ans a) /\ prefetch_done ipString pack hash o q mn now (Ans a) c = Some c.
Proof. intros H. unfold resolve_finish, prefetch_done. rewrite H. auto. Qed.

Lemma smallest_le l r : In r l -> exists n, smallest l = Some n /\ n <= rr_ttl r.
Proof.
  induction l as [|x l IH]; intros []; cbn [smallest].
  - subst. destruct (smallest l); eexists; (split; [reflexivity|lia]).
  - destruct (IH H) as (n & -> & Hn). eexists. split; [reflexivity|lia].
Qed.

Lemma lifetime_le_ttl o a n r : opts_ok o -> ttls_ok a -> m_rcode a <> RcodeServerFailure ->
  lifetime o a = Some n -> In r (records a) -> n <= rr_ttl r.
Proof.
  intros Ho Ht Hr. unfold lifetime, base_lifetime. destruct (m_tc a); [discriminate|]. intros E Hin.
  destruct (smallest_le _ _ Hin) as (s & Es & Hs). rewrite Es in E.
  assert (Hb : forall x, (if s =? max_ttl then Some (o_negttl o) else Some s) = Some x -> x <= rr_ttl r).
  { intros x. destruct (N.eqb_spec s max_ttl) as [Hmx|]; intros [= <-]; [|exact Hs]. destruct Ho as [Hn _]. unfold max_ttl, Cache_model.MaxUint32 in *. lia. }
  assert (Hc : forall x, match (if s =? max_ttl then Some (o_negttl o) else Some s) with None => None
     | Some n => Some (match o_rcodemax o (m_rcode a) with Some l => N.min l n | None => n end) end = Some x -> x <= rr_ttl r).
  { intros x. destruct (if s =? max_ttl then _ else _) as [y|] eqn:Ey; [|discriminate]. specialize (Hb y eq_refl). destruct (o_rcodemax o (m_rcode a)); intros [= <-]; lia. }
  unfold RcodeServerFailure in Hr.
  destruct (m_rcode a) as [|[[[p|p|]|[p|p|]|]|[[p|p|]|[p|p|]|]|]]; try discriminate; try congruence; apply Hc, E.
Qed.

(** C08 *)
Lemma codec_roundtrip k m w : key_ok k -> meta_ok m ->
  exists b, newCacheBlobFromWire k m w = Some b /\ newCacheItemJSON b = ItemJSON k m w /\
    b_key b = k /\ b_message b = w /\ b_prefetch b = mt_prefetch m /\
    nanoTime (b_timestamp b) = mt_timestamp m /\ nanoTime (b_expiry b) = mt_expiry m /\
    (forall k', matchesKey b k' = true <-> k' = k).
Proof.
  intros Hk Hm. destruct (newBlob_total k m w Hk) as (b & Hb). exists b.
  pose proof (f_json k m w b Hk Hb Hm) as J. split; [exact Hb|]. split; [exact J|].
  unfold newCacheItemJSON in J. assert (M : forall k', matchesKey b k' = true <-> k' = k) by (intros k'; eapply f_matches; eauto).
  destruct m as [mt me mp]. injection J as -> -> -> -> ->. auto 10.
Qed.

Lemma codec_rejects k m w : newCacheBlobFromWire k m w = None <->
  (65535 < N.of_nat (String.length (q_name (k_q k))) \/ 65535 < N.of_nat (String.length (k_net k))).
Proof.
  split.
  - intros H. destruct (N.lt_ge_cases 65535 (N.of_nat (String.length (q_name (k_q k))))); [auto|].
    destruct (N.lt_ge_cases 65535 (N.of_nat (String.length (k_net k)))); [auto|]. exfalso. revert H. unfold newCacheBlobFromWire.
    rewrite !bytes_of_string_length. destruct (N.ltb_spec 65535 (N.of_nat (String.length (q_name (k_q k))))); [lia|].
    destruct (N.ltb_spec 65535 (N.of_nat (String.length (k_net k)))); [lia|]. discriminate.
  - intros H. destruct (newCacheBlobFromWire k m w) as [b|] eqn:E; [|reflexivity]. pose proof (newBlob_some_lengths _ _ _ _ E). lia.
Qed.

(* entries of a store built by good operations *)
Notation gop unpack := (fun o : op lruKey bytes => match o with Add _ _ k b => good_entry unpack (k, b) | _ => True end).
Lemma good_entry_stored unpack k b : good_entry unpack (k, b) -> stored k b.
Proof. intros (m & w & Kok & _ & _ & _ & _ & Hb). exists m, w. auto. Qed.

Lemma hrun_entries hash cap (P : lruKey * bytes -> Prop) ops : forall s, Forall P s ->
  Forall (fun o => match o with Add _ _ k b => P (k, b) | _ => True end) ops ->
  Forall P (fst (hrun lruKey bytes hash key_eq cap s ops)).
Proof.
  induction ops as [|o ops IH]; intros s Hs Ho; cbn [hrun fst]; [exact Hs|]. inversion Ho; subst. apply IH; [|assumption].
  rewrite Forall_forall in *. intros e He. destruct o as [k b|k|k|g|]; cbn [hstep fst] in He.
  - apply cut_in' in He. destruct He as [<-|He]; [assumption|]. unfold hdrop in He. apply filter_In in He. apply Hs, He.
  - destruct (lookup lruKey bytes key_eq k s) as [b|] eqn:L; cbn [fst] in He; [|auto].
    destruct He as [<-|He]; [apply Hs; eapply lookup_in; eauto|apply Hs; eapply drop_in; eauto].
  - apply Hs. eapply drop_in; eauto.
  - apply filter_In in He. apply Hs, He.
  - contradiction.
Qed.

Lemma file_roundtrip unpack h1 h2 cap1 cap2 ops c outs :
  Forall (gop unpack) ops ->
  run lruKey bytes matchesKey h1 (cache_new cap1) ops = Some (c, outs) ->
  inj_on lruKey h2 (keys_of lruKey bytes ops) ->
  (cap2 <= 0 \/ Z.of_nat (size bytes c) <= cap2)%Z ->
  exists blobs recs c', serialize bytes c = Some blobs /\ saveFile c = Some recs /\
    loadFile unpack h2 recs (cache_new cap2) = Some c' /\ serialize bytes c' = Some blobs /\ size bytes c' = size bytes c.
Proof.
  intros Hg E I2 Hc.
  assert (Hs : Forall sop ops). { eapply Forall_impl; [|exact Hg]. intros [k b| | | |] H; auto. eapply good_entry_stored; eauto. }
  destruct (run_rep lruKey bytes matchesKey h1 key_eq ops (cache_new cap1) [] (new_rep _ _ _ _ _ _) (new_bounded lruKey bytes matchesKey _ cap1) (stored_ops _ Hs)) as (c1 & E1 & R & M & Bd).
  assert (c1 = c) by congruence. subst c1. set (s := fst (hrun lruKey bytes h1 key_eq (maxItems bytes (cache_new cap1)) [] ops)) in *.
  assert (G : Forall (good_entry unpack) s) by (apply hrun_entries; [constructor|exact Hg]).
  assert (Sz : size bytes c = length s) by (unfold size; eapply rep_length; eauto).
  assert (W : forall k, In k (map fst s) -> In k (keys_of lruKey bytes ops)).
  { intros k Hk. assert (F : Forall (fun e : lruKey * bytes => In (fst e) (keys_of lruKey bytes ops)) s).
    { apply hrun_entries; [constructor|]. apply Forall_forall. intros [k0 b0| | | |] Hin; auto. unfold keys_of. apply in_flat_map.
      exists (Add _ _ k0 b0). split; [assumption|left; reflexivity]. }
    rewrite Forall_forall in F. apply in_map_iff in Hk. destruct Hk as (e & <- & He). apply F, He. }
  destruct (reload_order unpack h1 h2 cap2 c s (conj R Bd) G) as (recs & c' & S1 & L1 & [R' Bd']).
  { intros a b Ha Hb. apply I2; apply W; assumption. } { rewrite <- Sz. exact Hc. }
  exists (rev (map snd s)), recs, c'. rewrite (serialize_rep _ _ _ _ _ _ R), (serialize_rep _ _ _ _ _ _ R').
  split; [reflexivity|]. split; [exact S1|]. split; [exact L1|]. split; [reflexivity|]. rewrite Sz. unfold size. eapply rep_length; eauto.
Qed.

Lemma load_total unpack hash cap recs : Forall rec_ok recs ->
  exists c, loadFile unpack hash recs (cache_new cap) = Some c /\ ((0 < cap)%Z -> (Z.of_nat (size bytes c) <= cap)%Z).
Proof.
  intros H. destruct (ok_load unpack hash recs (cache_new cap) [] (ok_new hash cap) H) as (c & s & E & [R Bd] & M & _).
  exists c. split; [exact E|]. intros Hc. unfold size. rewrite (rep_length _ _ _ _ _ _ R). destruct Bd as [Bd|Bd]; rewrite M in Bd; cbn in Bd; lia.
Qed.

(* restart: an answer served after a reload comes from the history before or after *)
Lemma restart_fair ipString pack unpack h1 h2 o cap1 cap2 l1 l2 c1 recs c2 c3 q now r pf :
  ip_text_ok ipString -> opts_ok o -> Forall event_ok (l1 ++ l2) -> faithful pack unpack (l1 ++ l2) -> query_ok q ->
  exec_all ipString pack unpack h1 o (cache_new cap1) l1 = Some c1 ->
  saveFile c1 = Some recs -> loadFile unpack h2 recs (cache_new cap2) = Some c2 ->
  exec_all ipString pack unpack h2 o c2 l2 = Some c3 ->
  peek ipString unpack h2 c3 q now = Some (r, pf) -> hit_source pack o (l1 ++ l2) q now r.
Proof.
  intros Hi Ho Hl Hf Hq E1 Sv Ld E2 P. pose proof Hl as Hl'. apply Forall_app in Hl'. destruct Hl' as [Hl1 Hl2].
  destruct (exec_total ipString pack unpack h1 Hi o cap1 l1 Hl1) as (c1' & s1 & E1' & [R1 B1] & M1 & F1). assert (c1' = c1) by congruence. subst c1'.
  unfold saveFile in Sv. rewrite (serialize_rep _ _ _ _ _ _ R1) in Sv. cbn [option_map] in Sv. inversion Sv; subst recs.
  assert (Src : forall k b, In (k, b) s1 -> exists m w, key_ok k /\ meta_ok m /\ newCacheBlobFromWire k m w = Some b).
  { intros k b Hin. destruct (F1 _ _ Hin) as (la & e & lb & -> & (q0 & t0 & a & m & St & Eok & Hk0 & Sm & Nb) & _).
    assert (Har : arrival e = Some (q0, t0, a) /\ m_tc a = false).
    { unfold stores in St. destruct (arrival e) as [[[q1 t1] a1]|]; [|discriminate]. destruct (m_tc a1) eqn:Tc; [discriminate|].
      destruct (storeInCache o t1 a1); [|discriminate]. destruct (pack a1); [|discriminate]. inversion St; subst. auto. }
    destruct Har as [Har Tc]. destruct (arrival_ok _ _ _ _ Eok Har) as (Hq0 & Ht0 & Htt).
    destruct (query_key ipString Hi q0 Hq0) as (k0 & Hk0' & Kok). assert (k0 = k) by congruence. subst k0.
    pose proof (storeInCache_spec o t0 a Htt Tc) as SP. rewrite Sm in SP. destruct (lifetime o a) as [n|] eqn:Ln; [|contradiction].
    destruct SP as [Sts Sex]. pose proof (lifetime_bound _ _ _ Ho Htt Ln) as Bn.
    unfold newCacheBlob in Nb. destruct (pack a) as [w|] eqn:Pk; [|discriminate]. exists m, w. split; [exact Kok|]. split; [|exact Nb].
    split; [rewrite Sts|rewrite Sex]; unfold time_ok, i64_ok, now_ok, add_seconds, a_second, second, max_ttl, Cache_model.MaxUint32 in *; lia. }
  assert (RO : Forall rec_ok (map newCacheItemJSON (rev (map snd s1)))).
  { apply Forall_forall. intros j Hj. apply in_map_iff in Hj. destruct Hj as (b & <- & Hb). apply in_rev in Hb. apply in_map_iff in Hb.
    destruct Hb as ([k b'] & <- & Hin). destruct (Src _ _ Hin) as (m & w & Kok & Mok & Nb). cbn [snd]. rewrite (f_json k m w b' Kok Nb Mok).
    destruct Kok as (A & B & C & _). repeat split; assumption. }
  destruct (ok_load unpack h2 _ (cache_new cap2) [] (ok_new h2 cap2) RO) as (c2' & s2 & Ld' & O2 & M2 & I2).
  assert (c2' = c2) by congruence. subst c2'.
  assert (F2 : from_history ipString pack o l1 s2).
  { intros k b Hin. apply F1. destruct (I2 _ _ Hin) as [[]|(j & Hj & -> & Tb)]. apply in_map_iff in Hj. destruct Hj as (b' & <- & Hb). apply in_rev in Hb.
    apply in_map_iff in Hb. destruct Hb as ([k b0] & Eb & Hin'). cbn [snd] in Eb. subst b'. destruct (Src _ _ Hin') as (m & w & Kok & Mok & Nb).
    rewrite (f_json k m w b0 Kok Nb Mok) in *. cbn [j_key j_meta j_msg]. unfold toCacheBlob in Tb. cbn [j_key j_meta j_msg] in Tb.
    destruct (_ || _); [discriminate|]. destruct (negb _); [discriminate|]. assert (b = b0) by congruence. subst. exact Hin'. }
  destruct (ok_exec_all ipString pack unpack h2 Hi o l2 c2 s2 l1 O2 F2 Hl2) as (c3' & s3 & E3 & O3 & M3 & F3). assert (c3' = c3) by congruence. subst c3'.
  rewrite (peek_view ipString unpack h2 Hi c3 s3 q now O3 Hq) in P. eapply (view_source ipString pack unpack); eauto.
Qed.

(** C09 *)
Lemma harden_cases ipString pack unpack hash o cap l c f q now :
  ip_text_ok ipString -> Forall event_ok l -> query_ok q ->
  exec_all ipString pack unpack hash o (cache_new cap) l = Some c ->
  forall x t, m_question q = x :: t -> ~ flush_query o q ->
  peek ipString unpack hash c q now = None ->
  forall c' r, resolve_lookup ipString unpack hash o f q now c = Some (c', r) ->
  ((exists eff, r = Some (nxdomain q, eff)) /\ o_harden o = true /\
     exists p a0 pf, dot_ancestor p (q_name x) /\ peek ipString unpack hash c (with_name q p) now = Some (a0, pf) /\
       m_rcode a0 = RcodeNameError /\
       forall p', dot_ancestor p' (q_name x) -> dot_ancestor p p' -> peek ipString unpack hash c (with_name q p') now = None)
  \/ (r = None /\ (o_harden o = true -> forall p a0 pf, dot_ancestor p (q_name x) ->
         peek ipString unpack hash c (with_name q p) now = Some (a0, pf) -> m_rcode a0 = RcodeNameError ->
         exists p' a1 pf1, dot_ancestor p' (q_name x) /\ dot_ancestor p p' /\
           peek ipString unpack hash c (with_name q p') now = Some (a1, pf1))).
Proof.
  intros Hi Hl Hq E x t Ex Hfl P c' r R.
  destruct (lookup_cases ipString pack unpack hash Hi o cap l c f q now Hl Hq E) as (c1 & r1 & E1 & C). rewrite E1 in R. inversion R; subst.
  assert (G : (exists p a0 pf, sp_anc p (q_name x) /\ peek ipString unpack hash c (with_name q p) now = Some (a0, pf) /\
                m_rcode a0 = RcodeNameError /\
                forall p', sp_anc p' (q_name x) -> sp_anc p p' -> peek ipString unpack hash c (with_name q p') now = None) ->
              exists p a0 pf, dot_ancestor p (q_name x) /\ peek ipString unpack hash c (with_name q p) now = Some (a0, pf) /\
                m_rcode a0 = RcodeNameError /\
                forall p', dot_ancestor p' (q_name x) -> dot_ancestor p p' -> peek ipString unpack hash c (with_name q p') now = None).
  { intros (p & a0 & pf & A & B & D & F). exists p, a0, pf. split; [apply sp_anc_dot, A|]. split; [exact B|]. split; [exact D|].
    intros p' H1 H2. apply F; apply sp_anc_dot; assumption. }
  destruct r as [[a [| |mn]]|].
  - tauto.
  - destruct C as [_ [(a0 & pf & P' & _)|(x' & t' & Hh & _ & Ex' & -> & H)]]; [congruence|]. rewrite Ex in Ex'. inversion Ex'; subst. left. split; [eauto|]. split; [assumption|auto].
  - destruct C as [_ [(a0 & pf & P' & _)|(x' & t' & Hh & _ & Ex' & -> & H)]]; [congruence|]. rewrite Ex in Ex'. inversion Ex'; subst. left. split; [eauto|]. split; [assumption|auto].
  - right. destruct C as (_ & _ & H). split; [reflexivity|]. intros Hh p a0 pf Hp Pk Hr. apply sp_anc_dot in Hp.
    destruct (H Hh x t Ex p a0 pf Hp Pk Hr) as (p' & a1 & pf1 & A & B & D). exists p', a1, pf1.
    split; [apply sp_anc_dot, A|]. split; [apply sp_anc_dot, B|exact D].
Qed.

Lemma hit_same_question ipString pack unpack hash o cap l c q now r pf :
    ip_text_ok ipString -> opts_ok o -> Forall event_ok l -> faithful pack unpack l -> query_ok q ->
    exec_all ipString pack unpack hash o (cache_new cap) l = Some c ->
    peek ipString unpack hash c q now = Some (r, pf) ->
    exists e q0 t0 a, In e l /\ arrival e = Some (q0, t0, a) /\ same_question q0 q /\ aged_msg q t0 now a r.
Proof.
  intros Hi Ho Hl Hf Hq E P. destruct (hit_is_fair ipString pack unpack hash o cap l c q now r pf Hi Ho Hl Hf Hq E P)
    as (l1 & e & l2 & q0 & t0 & a & n & -> & Ha & Sq & _ & _ & Ag & _).
  exists e, q0, t0, a. split; [apply in_or_app; right; left; reflexivity|auto].
Qed.

Lemma lifetime_exact o now a : ttls_ok a -> m_tc a = false ->
    match lifetime o a, storeInCache o now a with
    | Some n, Some m => mt_timestamp m = Some now /\ mt_expiry m = Some (now + Z.of_N n * a_second)%Z
    | None, None => True
    | _, _ => False
    end.
Proof.
  intros Ht Tc. pose proof (storeInCache_spec o now a Ht Tc) as S. destruct (lifetime o a), (storeInCache o now a); try exact S; try exact I.
Qed.

Lemma lifetime_capped o a n m : lifetime o a = Some n -> o_rcodemax o (m_rcode a) = Some m -> n <= m.
Proof.
  unfold lifetime. destruct (m_tc a); [discriminate|]. destruct (base_lifetime o a); [|discriminate]. intros [= <-] ->. lia.
Qed.

From Verif Require Import Cache_demo.
Lemma append_assoc' (a b c : string) : ((a ++ b) ++ c = a ++ (b ++ c))%string.
Proof. induction a; cbn; congruence. Qed.
Lemma labels_esc_nil n : forall cur s, (String.length s <= n)%nat -> labels_esc cur s <> [].
Proof.
  induction n as [|n IH]; intros cur [|x s] L; cbn [String.length] in L; try lia; cbn [labels_esc]; try discriminate.
  destruct (Ascii.eqb x "\"%char); [destruct s as [|d s]; [discriminate|apply IH; cbn [String.length] in L; lia]|].
  destruct (Ascii.eqb x dot); [discriminate|apply IH; lia].
Qed.
Lemma labels_esc_join n : forall cur s, (String.length s <= n)%nat -> join dot (labels_esc cur s) = (cur ++ s)%string.
Proof.
  induction n as [|n IH]; intros cur [|x s] L; cbn [String.length] in L; try lia; cbn [labels_esc].
  1,2: cbn; induction cur; cbn; congruence.
  destruct (Ascii.eqb_spec x "\"%char) as [->|].
  - destruct s as [|d s]; [reflexivity|]. cbn [String.length] in L. rewrite IH by lia. rewrite append_assoc'. reflexivity.
  - destruct (Ascii.eqb_spec x dot) as [->|].
    + pose proof (IH ""%string s ltac:(lia)) as J. destruct (labels_esc "" s) as [|y l] eqn:E; [exfalso; exact (labels_esc_nil _ _ _ (le_n _) E)|].
      rewrite join_cons2, J. reflexivity.
    + rewrite IH by lia. rewrite append_assoc'. reflexivity.
Qed.
Lemma dns_labels_join s : join dot (dns_labels s) = s.
Proof. unfold dns_labels. rewrite (labels_esc_join (String.length s)); auto. Qed.
Lemma escaped_denied : exists l c c' q x eff,
    Forall event_ok l /\ faithful toy_pack (toy_unpack "a.com." "b.com.") l /\ query_ok q /\ m_question q = [x] /\
    exec_all toy_ip toy_pack (toy_unpack "a.com." "b.com.") hash7 opts (cache_new 0) l = Some c /\
    peek toy_ip (toy_unpack "a.com." "b.com.") hash7 c q t0 = None /\
    resolve_lookup toy_ip (toy_unpack "a.com." "b.com.") hash7 opts (fun m => m) q t0 c = Some (c', Some (nxdomain q, eff)) /\
    forall p, proper_ancestor p (q_name x) -> peek toy_ip (toy_unpack "a.com." "b.com.") hash7 c (with_name q p) t0 = None.
Proof.
  set (l := [EStore (query "b.com." 1) t0 (Ans (nx_answer "b.com."))]).
  destruct (exec_all toy_ip toy_pack (toy_unpack "a.com." "b.com.") hash7 opts (cache_new 0) l) as [c|] eqn:E; [|vm_compute in E; discriminate].
  set (q := query "a\.b.com." 1).
  destruct (resolve_lookup toy_ip (toy_unpack "a.com." "b.com.") hash7 opts (fun m => m) q t0 c) as [[c' r]|] eqn:R.
  2:{ vm_compute in E. inversion E; subst c. vm_compute in R. discriminate. }
  exists l, c, c', q, (Q "a\.b.com." 1 1), FromCache.
  split; [repeat constructor; cbn; try discriminate; vm_compute; congruence|].
  split. { intros e q1 t a w [<-|[]]. cbn [arrival]. intros [= <- <- <-] [= <-]. reflexivity. }
  split; [repeat constructor; cbn; try discriminate; vm_compute; congruence|].
  split; [reflexivity|]. split; [exact E|].
  vm_compute in E. inversion E; subst c. split; [vm_compute; reflexivity|].
  split; [vm_compute in R; inversion R; reflexivity|].
  intros p (lab & Hl & Hd & H2). cbn [q_name] in Hd.
  change (dns_labels "a\.b.com.") with ["a\.b"; "com"; ""]%string in Hd.
  assert (Hp : dns_labels p = ["com"; ""]%string).
  { destruct lab as [|x1 [|x2 lab]]; [congruence| |].
    - injection Hd as _ Hd. symmetry. exact Hd.
    - exfalso. cbn in Hd. injection Hd as _ _ Hd. apply (f_equal (@length _)) in Hd. rewrite app_length in Hd. cbn in Hd. lia. }
  assert (p = "com."%string) as ->.
  { pose proof (dns_labels_join p) as J. rewrite Hp in J. symmetry. exact J. }
  vm_compute. reflexivity.
Qed.

Lemma opcode_confused : exists l c c' q r,
    Forall event_ok l /\ faithful toy_pack (toy_unpack "a.com." "b.com.") l /\ query_ok q /\ m_opcode q = OpcodeNotify /\
    exec_all toy_ip toy_pack (toy_unpack "a.com." "b.com.") hash7 opts (cache_new 0) l = Some c /\
    resolve_lookup toy_ip (toy_unpack "a.com." "b.com.") hash7 opts (fun m => m) q t0 c = Some (c', Some (r, FromCache)) /\
    m_opcode r = OpcodeQuery /\
    forall e q0 t a, In e l -> arrival e = Some (q0, t, a) -> m_opcode q0 = OpcodeQuery.
Proof.
  set (l := [EStore (query "a.com." 1) t0 (Ans (good_answer "a.com."))]).
  set (q := Msg 9 false OpcodeNotify true false false false false false 0 [Q "a.com." 1 1] [] [] []).
  destruct (exec_all toy_ip toy_pack (toy_unpack "a.com." "b.com.") hash7 opts (cache_new 0) l) as [c|] eqn:E; [|vm_compute in E; discriminate].
  destruct (resolve_lookup toy_ip (toy_unpack "a.com." "b.com.") hash7 opts (fun m => m) q t0 c) as [[c' [[r eff]|]]|] eqn:R.
  2,3: exfalso; vm_compute in E; inversion E; subst c; vm_compute in R; discriminate.
  assert (eff = FromCache /\ m_opcode r = OpcodeQuery) as [-> Hr].
  { vm_compute in E. inversion E; subst c. vm_compute in R. inversion R. split; reflexivity. }
  exists l, c, c', q, r.
  split; [repeat constructor; cbn; try discriminate; vm_compute; congruence|].
  split. { intros e q1 t a w [<-|[]]. cbn [arrival]. intros [= <- <- <-] [= <-]. reflexivity. }
  split; [repeat constructor; cbn; try discriminate; vm_compute; congruence|].
  split; [reflexivity|]. split; [exact E|]. split; [exact R|]. split; [exact Hr|].
  intros e q0 t a [<-|[]]. cbn [arrival]. intros [= <- <- <-]. reflexivity.
Qed.

(** C59 *)
Definition with_opcode (n : N) (m : msg) : msg :=
  Msg (m_id m) (m_response m) n (m_aa m) (m_tc m) (m_rd m) (m_ra m) (m_ad m) (m_cd m) (m_rcode m) (m_question m) (m_answer m) (m_ns m) (m_extra m).
Lemma same_but_with q q' : same_but_opcode q q' -> q = with_opcode (m_opcode q) q'.
Proof. destruct q, q'. unfold same_but_opcode, with_opcode. cbn. intros (-> & -> & -> & -> & -> & -> & -> & -> & -> & -> & -> & -> & ->). reflexivity. Qed.

Section Opcode.
Variable ipString : bytes -> string.
Variable pack : msg -> option bytes.
Variable unpack : bytes -> option msg.
Variable hash : lruKey -> N.

Lemma opcode_key n q : lruKeyFromQuery ipString (with_opcode n q) = lruKeyFromQuery ipString q.
Proof. reflexivity. Qed.
Lemma opcode_lookup n q now c : mem_lookup ipString unpack hash (with_opcode n q) now c = mem_lookup ipString unpack hash q now c.
Proof. reflexivity. Qed.
Lemma opcode_with_name n q p : with_name (with_opcode n q) p = with_opcode n (with_name q p).
Proof. unfold with_name. cbn [with_opcode m_question]. destruct (m_question q); reflexivity. Qed.

Lemma opcode_harden n q now names : forall c,
  match harden_loop ipString unpack hash (with_opcode n q) now names c, harden_loop ipString unpack hash q now names c with
  | Some (c1, r1), Some (c2, r2) => c1 = c2 /\ option_map snd r1 = option_map snd r2
  | None, None => True
  | _, _ => False
  end.
Proof.
  induction names as [|x names IH]; intros c; cbn [harden_loop]; [auto|].
  rewrite opcode_with_name, opcode_lookup. destruct (mem_lookup ipString unpack hash (with_name q x) now c) as [[c1 [[a pf]|]]|]; [| |exact I].
  - destruct (m_rcode a =? RcodeNameError); auto.
  - apply IH.
Qed.

Lemma opcode_exec o e e' c : same_event e e' -> exec ipString pack unpack hash o c e = exec ipString pack unpack hash o c e'.
Proof.
  intros H. inversion H as [q q' now f S|q q' now up S|q q' min now up S|now|q q' S]; subst; try reflexivity;
    rewrite (same_but_with _ _ S); generalize (m_opcode q); intros n; [|reflexivity|reflexivity|reflexivity].
  cbn [exec]. unfold resolve_lookup. change (m_question (with_opcode n q')) with (m_question q').
  destruct (_ && _); [reflexivity|]. unfold answerFromCache. rewrite opcode_lookup.
  destruct (mem_lookup ipString unpack hash q' now c) as [[c1 [[a pf]|]]|]; [reflexivity| |reflexivity].
  destruct (o_harden o); [|reflexivity]. change (m_question (with_opcode n q')) with (m_question q'). destruct (m_question q') as [|x t]; [reflexivity|].
  pose proof (opcode_harden n q' now (ancestors (q_name x)) c1) as G.
  destruct (harden_loop ipString unpack hash (with_opcode n q') now (ancestors (q_name x)) c1) as [[c2 r2]|];
    (destruct (harden_loop ipString unpack hash q' now (ancestors (q_name x)) c1) as [[c3 r3]|]); try destruct G; [|reflexivity].
  subst c3. destruct r2 as [[a2 p2]|], r3 as [[a3 p3]|]; try discriminate; [|reflexivity].
  destruct (p2 && _); destruct (p3 && _); repeat (destruct (minTTL _) as [? ?]); repeat match goal with |- context [if ?b then _ else _] => destruct b end; reflexivity.
Qed.

Lemma opcode_ignored o l : forall l' c, Forall2 same_event l l' ->
  exec_all ipString pack unpack hash o c l = exec_all ipString pack unpack hash o c l'.
Proof.
  induction l as [|e l IH]; intros l' c F; inversion F as [|? e' ? l2 S F2]; subst; [reflexivity|].
  cbn [exec_all]. rewrite (opcode_exec o e e' c S). destruct (exec ipString pack unpack hash o c e'); [|reflexivity]. apply IH, F2.
Qed.
Lemma opcode_peek c q q' now : same_but_opcode q q' -> peek ipString unpack hash c q now = peek ipString unpack hash c q' now.
Proof. intros S. rewrite (same_but_with _ _ S). reflexivity. Qed.
End Opcode.
