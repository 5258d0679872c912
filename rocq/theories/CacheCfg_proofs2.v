(** Proofs about CacheCfg_model.v: caches at work *)
From Verif Require Import Base Bytes Dns Lru_model Lru_spec Lru_proofs Lru_proofs2 Blob_model Blob_spec Blob_proofs Cache_model Cache_spec Cache_proofs Cache_proofs2 Cache_proofs3 Cache_proofs4 CacheCfg_model CacheCfg_spec CacheCfg_proofs.
From Verif Require Router_spec Router_proofs Shuffle_spec Shuffle_proofs.
From Coq Require Import Permutation ZifyBool ZifyNat ZifyN.
Local Open Scope N_scope.

Section H.
Variable ipString : bytes -> string.
Variable pack : msg -> option bytes.
Variable unpack : bytes -> option msg.
Variable hash : lruKey -> N.
Hypothesis ip_ok : ip_text_ok ipString.
Variable o : options.
Notation keyq := (lruKeyFromQuery ipString).

Definition source (l : list event) (q : msg) (now : Z) (a r : msg) (pf : bool) : Prop :=
  exists l1 e l2 q0 t0 n,
    l = l1 ++ e :: l2 /\ arrival e = Some (q0, t0, a) /\ same_question q0 q /\
    lifetime o a = Some n /\ (now <= t0 + Z.of_N n * a_second)%Z /\ aged_msg q t0 now a r /\
    (forall e' q' t' a', In e' l2 -> arrival e' = Some (q', t', a') -> lifetime o a' <> None -> pack a' <> None -> ~ same_question q' q) /\
    (pf = true <-> regular a /\ exists n, ttl_of a n /\ o_eligible o < n) /\ ttls_ok a.

Lemma stored_eligible now a m : ttls_ok a -> storeInCache o now a = Some m -> (mt_prefetch m = true <-> regular a /\ exists n, ttl_of a n /\ o_eligible o < n).
Proof.
  intros T. unfold storeInCache. rewrite (minTTL_spec a T).
  set (reg := (m_rcode a =? RcodeSuccess) || (m_rcode a =? RcodeNameError) || (m_rcode a =? RcodeRefused) || (m_rcode a =? RcodeNotImplemented) || (m_rcode a =? RcodeFormatError)).
  assert (Rg : reg = true <-> regular a).
  { unfold reg, regular, RcodeSuccess, RcodeNameError, RcodeRefused, RcodeNotImplemented, RcodeFormatError. rewrite !orb_true_iff, !N.eqb_eq. cbn [In]. intuition congruence. }
  assert (F : forall n, ttl_of a n -> smallest (records a) = Some n) by (intros n H; exact (proj1 H)).
  destruct (smallest (records a)) as [n|] eqn:S.
  - destruct (N.eqb_spec n max_ttl) as [En|Ne].
    + assert (No : ~ exists n0, ttl_of a n0 /\ o_eligible o < n0).
      { intros (n0 & (A & B) & _). rewrite S in A. injection A as <-. apply B. exact En. }
      destruct reg; [|destruct (m_rcode a =? RcodeServerFailure); [destruct (o_negttl o <? 300)|discriminate]]; intros H; injection H as <-; cbn [mt_prefetch]; split; try discriminate; tauto.
    + destruct reg eqn:Er.
      * intros H. injection H as <-. cbn [mt_prefetch]. rewrite N.ltb_lt. split.
        -- intros L. split; [apply Rg; reflexivity|]. exists n. split; [split; [exact S|exact Ne]|exact L].
        -- intros (_ & n0 & (A & _) & L). rewrite S in A. injection A as <-. exact L.
      * destruct (m_rcode a =? RcodeServerFailure); [|discriminate]. intros H.
        assert (P : mt_prefetch m = false) by (destruct (o_negttl o <? 300); injection H as <-; reflexivity).
        rewrite P. split; [discriminate|]. intros (A & _). apply Rg in A. discriminate.
  - assert (No : ~ exists n0, ttl_of a n0 /\ o_eligible o < n0) by (intros (n0 & (A & B) & _); congruence).
    destruct reg; [|destruct (m_rcode a =? RcodeServerFailure); [destruct (o_negttl o <? 300)|discriminate]]; intros H; injection H as <-; cbn [mt_prefetch]; split; try discriminate; tauto.
Qed.

Lemma view_from l s q now r pf : opts_ok o ->
  from_history ipString pack o l s -> Forall event_ok l -> query_ok q ->
  faithful pack unpack l ->
  view ipString unpack s q now = Some (r, pf) -> exists a, source l q now a r pf.
Proof.
  intros o_ok F Hl Hq Hfa V. unfold view in V. destruct (keyq q) as [k|] eqn:Hk; [|discriminate].
  destruct (lookup _ _ key_eq k s) as [b|] eqn:L; [|discriminate]. apply lookup_in in L.
  destruct (F _ _ L) as (l1 & e & l2 & El & (q0 & t0 & a & m & St & Eok & Hk0 & Sm & Nb) & Nw).
  assert (Har : arrival e = Some (q0, t0, a) /\ m_tc a = false).
  { unfold stores in St. destruct (arrival e) as [[[q1 t1] a1]|]; [|discriminate]. destruct (m_tc a1) eqn:Tc; [discriminate|].
    destruct (storeInCache o t1 a1); [|discriminate]. destruct (pack a1); [|discriminate]. inversion St; subst. auto. }
  destruct Har as [Har Tc]. destruct (arrival_ok _ _ _ _ Eok Har) as (Hq0 & Ht0 & Htt).
  destruct (query_key ipString ip_ok q0 Hq0) as (k0 & Hk0' & Kok). assert (k0 = k) by congruence. subst k0.
  pose proof (storeInCache_spec o t0 a Htt Tc) as SP. pose proof (stored_eligible _ _ _ Htt Sm) as EL. rewrite Sm in SP. destruct (lifetime o a) as [n|] eqn:Ln; [|contradiction].
  destruct SP as [Sts Sex]. pose proof (lifetime_bound _ _ _ o_ok Htt Ln) as Bn.
  unfold newCacheBlob in Nb. destruct (pack a) as [w|] eqn:P; [|discriminate].
  assert (T1 : time_ok (mt_timestamp m)).
  { rewrite Sts. unfold time_ok, i64_ok, now_ok in *. lia. }
  assert (T2 : time_ok (mt_expiry m)).
  { rewrite Sex. unfold time_ok, i64_ok, now_ok, add_seconds, a_second, second, max_ttl, Cache_model.MaxUint32 in *. lia. }
  pose proof (f_ts _ _ _ _ Kok Nb T1) as Bts. pose proof (f_ex _ _ _ _ Kok Nb T2) as Bex. pose proof (f_message _ _ _ _ Kok Nb) as Bm.
  pose proof (f_prefetch _ _ _ _ Kok Nb) as Bp.
  rewrite Sts in Bts. rewrite Sex in Bex. cbn [unixNano] in Bts, Bex. unfold add_seconds in Bex.
  unfold mem_finish in V. rewrite Bex, Bts, Bm in V. change a_second with second in *; destruct (Z.ltb_spec (t0 + Z.of_N n * second) now) as [|Lt]; [discriminate|].
  assert (Hun : unpack w = Some a). { eapply Hfa; [|exact Har|exact P]. rewrite El. apply in_or_app. right. left. reflexivity. }
  rewrite Hun in V. destruct (ageCachedAnswer a q (cacheAge now t0)) as [r'|] eqn:Ag; [|discriminate]. inversion V; subst r' pf.
  apply aged_sound in Ag; [|unfold max_ttl, Cache_model.MaxUint32, second in *; lia].
  rewrite Bp. exists a, l1, e, l2, q0, t0, n. split; [exact El|]. split; [exact Har|]. split.
  { apply (key_iff ipString ip_ok); [exact Hq0|exact Hq|congruence]. }
  split; [exact Ln|]. split; [exact Lt|]. split; [exact Ag|]. split; [|split; [exact EL|exact Htt]].
  intros e' q' t' a' He' Ha' Hl' Hp' Hs'.
  assert (Eok' : event_ok e'). { rewrite Forall_forall in Hl. apply Hl. rewrite El. apply in_or_app. right. right. exact He'. }
  destruct (arrival_ok _ _ _ _ Eok' Ha') as (Hq' & Ht' & Htt').
  refine (Nw e' q' t' a' He' _ _).
  - unfold stores. rewrite Ha'. destruct (m_tc a') eqn:Tc'; [exfalso; apply Hl'; unfold lifetime; rewrite Tc'; reflexivity|].
    pose proof (storeInCache_spec o t' a' Htt' Tc') as SP'. destruct (storeInCache o t' a'); [|destruct (lifetime o a'); [contradiction|congruence]].
    destruct (pack a'); [reflexivity|congruence].
  - rewrite <- Hk. apply (key_iff ipString ip_ok); [exact Hq'|exact Hq|exact Hs'].
Qed.

Definition effect_of (pf : bool) (r : msg) : effect :=
  if pf && (0 <? o_trigger o) then let '(min, ok) := minTTL r in if ok && (min <? o_trigger o) then Prefetched min else FromCache else FromCache.
Lemma lookup_full cap l c f q now c' r eff : Forall event_ok l -> query_ok q ->
  exec_all ipString pack unpack hash o (cache_new cap) l = Some c ->
  resolve_lookup ipString unpack hash o f q now c = Some (c', Some (r, eff)) ->
  (flush_query o q /\ r = set_reply empty_msg q /\ eff = Flushed /\ forall q' t, query_ok q' -> peek ipString unpack hash c' q' t = None) \/
  (~ flush_query o q /\ exists r0 pf, peek ipString unpack hash c q now = Some (r0, pf) /\ r = f r0 /\ eff = effect_of pf r) \/
  (~ flush_query o q /\ o_harden o = true /\ r = nxdomain q /\ eff = FromCache /\
     exists x t p a0 pf, m_question q = x :: t /\ dot_ancestor p (q_name x) /\ peek ipString unpack hash c (with_name q p) now = Some (a0, pf) /\ m_rcode a0 = RcodeNameError).
Proof.
  intros Hl Hq E Lk. destruct (exec_total ipString pack unpack hash ip_ok o cap l Hl) as (c0 & s & E' & O' & M & F). assert (c0 = c) by congruence. subst c0.
  destruct (lookup_cases ipString pack unpack hash ip_ok o cap l c f q now Hl Hq E) as (c2 & r2 & E2 & Cs). rewrite E2 in Lk. injection Lk as -> ->.
  unfold resolve_lookup in E2. fold (is_flush o q) in E2. destruct (is_flush o q) eqn:Fl.
  - injection E2 as <- <- <-. left. destruct Cs as [A B]. split; [exact A|]. split; [reflexivity|]. split; [reflexivity|]. intros q' t Hq'.
    assert (O2 : OK hash (reset bytes c) []).
    { destruct O' as [O1 _]. split; [eapply reset_rep; eauto|]. unfold bounded. cbn [length]. destruct (Z_le_dec (maxItems _ c) 0); [left; assumption|right]. cbn [maxItems reset]. lia. }
    rewrite (peek_view ipString unpack hash ip_ok _ _ _ _ O2 Hq'). unfold view. destruct (lruKeyFromQuery ipString q'); reflexivity.
  - right. assert (NF : ~ flush_query o q) by (intros HF; apply (is_flush_iff pack) in HF; congruence).
    destruct (ok_answer ipString pack unpack hash ip_ok o c s f q now O' Hq) as (c3 & s3 & E3 & _). rewrite E3 in E2.
    destruct (answer_view ipString unpack o s f q now) as [[a pf]|] eqn:AV; [|discriminate].
    assert (Ef : eff = effect_of pf r /\ a = r).
    { unfold effect_of. destruct (pf && (0 <? o_trigger o)).
      - destruct (minTTL a) as [mn ok] eqn:Mt. destruct (ok && (mn <? o_trigger o)) eqn:Ok; injection E2 as <- <- <-; rewrite Mt, Ok; split; reflexivity.
      - injection E2 as <- <- <-. split; reflexivity. }
    destruct Ef as [-> ->]. unfold answer_view in AV. rewrite <- (peek_view ipString unpack hash ip_ok c s q now O' Hq) in AV.
    destruct (peek ipString unpack hash c q now) as [[r0 pf0]|] eqn:Pk.
    + injection AV as <- <-. left. split; [exact NF|]. exists r0, pf0. split; [reflexivity|]. split; reflexivity.
    + right. destruct (o_harden o) eqn:Hh; [|discriminate]. destruct (m_question q) as [|x t] eqn:Ex; [discriminate|]. apply harden_view_first in AV. destruct AV as [AV _]. injection AV as -> ->.
      split; [exact NF|]. split; [reflexivity|]. split; [reflexivity|]. split; [reflexivity|].
      assert (C2 : (exists (a0 : msg) (pf : bool), @None (msg * bool) = Some (a0, pf) /\ nxdomain q = f a0) \/
        (exists x0 t0, true = true /\ @None (msg * bool) = None /\ x :: t = x0 :: t0 /\ nxdomain q = nxdomain q /\
         (exists p a0 pf, sp_anc p (q_name x0) /\ peek ipString unpack hash c (with_name q p) now = Some (a0, pf) /\ m_rcode a0 = RcodeNameError /\
            forall p', sp_anc p' (q_name x0) -> sp_anc p p' -> peek ipString unpack hash c (with_name q p') now = None))).
      { unfold effect_of in Cs. cbn [andb] in Cs. exact (proj2 Cs). }
      destruct C2 as [(a0 & pf & C2 & _)|(x0 & t0 & _ & _ & Ex0 & _ & p & a0 & pf & Hp & Pp & Hr & _)]; [discriminate|]. injection Ex0 as <- <-.
      exists x, t, p, a0, pf. split; [reflexivity|]. split; [apply sp_anc_dot; exact Hp|]. split; [exact Pp|exact Hr].
Qed.
Lemma peek_from cap l c q now r pf : opts_ok o -> Forall event_ok l -> faithful pack unpack l -> query_ok q ->
  exec_all ipString pack unpack hash o (cache_new cap) l = Some c ->
  peek ipString unpack hash c q now = Some (r, pf) -> exists a, source l q now a r pf.
Proof.
  intros Ho Hl Hf Hq E P. destruct (exec_total ipString pack unpack hash ip_ok o cap l Hl) as (c' & s & E' & O' & M & F). assert (c' = c) by congruence. subst c'.
  rewrite (peek_view ipString unpack hash ip_ok c s q now O' Hq) in P. exact (view_from l s q now r pf Ho F Hl Hq Hf P).
Qed.
Lemma size_bounded cap l c : Forall event_ok l -> exec_all ipString pack unpack hash o (cache_new cap) l = Some c -> (0 < cap)%Z -> (Z.of_nat (size bytes c) <= cap)%Z.
Proof.
  intros Hl E C. destruct (exec_total ipString pack unpack hash ip_ok o cap l Hl) as (c' & s & E' & (Rp & B) & M & F). assert (c' = c) by congruence. subst c'.
  unfold size. rewrite (rep_length _ _ _ _ _ _ Rp). unfold bounded in B. rewrite M in B. lia.
Qed.
End H.
