From Verif Require Import Base Base_proofs Bytes Bytes_proofs Dns Net Blob_model Blob_spec Blob_proofs
  Lru_model Lru_spec Lru_proofs Lru_proofs2 Cache_model Cache_spec Cache_proofs Cache_proofs2 Cache_proofs3.
From Coq Require Import ZifyBool ZifyNat ZifyN.
Open Scope N_scope.

Section Hits.
Variable ipString : bytes -> string.
Variable pack : msg -> option bytes.
Variable unpack : bytes -> option msg.
Variable hash : lruKey -> N.
Hypothesis ip_ok : ip_text_ok ipString.
Variable o : options.
Notation keyq := (lruKeyFromQuery ipString).

(* an answer just stored is found *)
Lemma stored_hit cap l c e q0 t0 a n w q now r :
  opts_ok o -> Forall event_ok (l ++ [e]) -> exec_all ipString pack unpack hash o (cache_new cap) (l ++ [e]) = Some c ->
  arrival e = Some (q0, t0, a) -> lifetime o a = Some n -> pack a = Some w -> unpack w = Some a ->
  query_ok q -> same_question q0 q -> (now <= t0 + Z.of_N n * a_second)%Z -> aged_msg q t0 now a r ->
  exists pf, peek ipString unpack hash c q now = Some (r, pf).
Proof.
  intros Ho Hl E Ha Ln P U Hq Hs Hn Hg. apply Forall_app in Hl. destruct Hl as [Hl He]. inversion He as [|? ? He1 _]; subst.
  destruct (arrival_ok _ _ _ _ He1 Ha) as (Hq0 & Ht0 & Htt).
  destruct (exec_total ipString pack unpack hash ip_ok o cap l Hl) as (c0 & s0 & E0 & O0 & M0 & F0).
  assert (E1 : exec ipString pack unpack hash o c0 e = Some c).
  { clear - E E0. revert E E0. generalize (cache_new cap). induction l as [|x l IH]; intros c1; cbn [app exec_all].
    - intros E1 [= ->]. destruct (exec ipString pack unpack hash o c0 e); congruence.
    - destruct (exec ipString pack unpack hash o c1 x); [apply IH|discriminate]. }
  assert (Tc : m_tc a = false) by (unfold lifetime in Ln; destruct (m_tc a); [discriminate|reflexivity]).
  pose proof (storeInCache_spec o t0 a Htt Tc) as SP. rewrite Ln in SP. destruct (storeInCache o t0 a) as [m|] eqn:Sm; [|contradiction].
  destruct SP as [Sts Sex]. pose proof (lifetime_bound _ _ _ Ho Htt Ln) as Bn.
  assert (E2 : mem_store ipString pack hash q0 m a c0 = Some c).
  { destruct e as [q1 t1 f1|q1 t1 up|q1 mn t1 up|t1|q1]; cbn [arrival] in Ha; try discriminate; destruct up as [a1| |]; try discriminate; cbn [exec] in E1.
    - inversion Ha; subst. unfold resolve_finish in E1. rewrite Tc, Sm in E1. destruct (mem_store _ _ _ _ _ _ _); cbn in E1; congruence.
    - destruct (accepted mn a1) eqn:Acc; [|discriminate]. inversion Ha; subst. unfold prefetch_done in E1. rewrite Tc in E1.
      pose proof (minTTL_accepted mn a Htt) as MA. revert E1 MA. destruct (minTTL a) as [am ok]. intros E1 MA. rewrite MA, Acc, Sm in E1. exact E1. }
  destruct (query_key ipString ip_ok q0 Hq0) as (k & Hk & Kok). unfold mem_store, newCacheBlob in E2. rewrite Hk, P in E2.
  destruct (newBlob_total k m w Kok) as (b & Hb). rewrite Hb in E2.
  destruct (ok_add hash c0 s0 k b O0 (good_blob _ _ _ _ Kok Hb)) as (c' & E3 & M3 & O3). assert (c' = c) by congruence. subst c'.
  rewrite (peek_view ipString unpack hash ip_ok c _ q now O3 Hq). unfold view.
  assert (Hkq : keyq q = Some k). { rewrite <- Hk. symmetry. apply (key_iff ipString ip_ok); [exact Hq0|exact Hq|exact Hs]. }
  rewrite Hkq.
  assert (Lk : lookup lruKey bytes key_eq k (cut lruKey bytes (maxItems bytes c0) ((k, b) :: hdrop lruKey bytes hash (hash k) s0)) = Some b).
  { unfold cut. destruct (Z.leb_spec (maxItems bytes c0) 0); [|destruct (Z.to_nat (maxItems bytes c0)) eqn:Ez; [lia|cbn [firstn]]];
    rewrite lookup_cons; destruct (key_eq k k); congruence. }
  rewrite Lk.
  assert (T1 : time_ok (mt_timestamp m)). { rewrite Sts. unfold time_ok, i64_ok, now_ok in *. lia. }
  assert (T2 : time_ok (mt_expiry m)). { rewrite Sex. unfold time_ok, i64_ok, now_ok, add_seconds, a_second, second, max_ttl, Cache_model.MaxUint32 in *. lia. }
  pose proof (f_ts _ _ _ _ Kok Hb T1) as Bts. pose proof (f_ex _ _ _ _ Kok Hb T2) as Bex. pose proof (f_message _ _ _ _ Kok Hb) as Bm.
  rewrite Sts in Bts. rewrite Sex in Bex. cbn [unixNano] in Bts, Bex. unfold add_seconds in Bex.
  unfold mem_finish. rewrite Bex, Bts, Bm, U. change a_second with second in *; destruct (Z.ltb_spec (t0 + Z.of_N n * second) now); [lia|].
  rewrite (aged_complete a q t0 now r); [eauto| |exact Hg]. unfold max_ttl, Cache_model.MaxUint32, second in *. lia.
Qed.

(** ** The cache file *)

Lemma ok_load recs : forall c s, OK hash c s -> Forall rec_ok recs ->
  exists c' s', loadFile unpack hash recs c = Some c' /\ OK hash c' s' /\ maxItems _ c' = maxItems _ c /\
    forall k b, In (k, b) s' -> In (k, b) s \/ exists r, In r recs /\ k = j_key r /\
        toCacheBlob (fun w => match unpack w with Some _ => true | None => false end) r = Some b.
Proof.
  induction recs as [|r recs IH]; intros c s H Hr; cbn [loadFile].
  - exists c, s. repeat split; auto; apply H.
  - inversion Hr as [|? ? H1 H2]; subst.
    destruct (toCacheBlob _ r) as [b|] eqn:T.
    + assert (exists w, newCacheBlobFromWire (j_key r) (j_meta r) w = Some b) as (w & Hb).
      { unfold toCacheBlob in T. destruct (_ || _); [discriminate|]. destruct (negb _); [discriminate|]. eauto. }
      assert (Kok : key_ok (j_key r)).
      { destruct H1 as (A & B & C). pose proof (newBlob_some_lengths _ _ _ _ Hb) as (D & E). repeat split; assumption. }
      destruct (ok_add hash c s (j_key r) b H (good_blob _ _ _ _ Kok Hb)) as (c1 & E1 & M1 & O1). rewrite E1.
      destruct (IH c1 _ O1 H2) as (c2 & s2 & E2 & O2 & M2 & I2). exists c2, s2. split; [exact E2|]. split; [exact O2|]. split; [congruence|].
      intros k0 b0 Hin. destruct (I2 _ _ Hin) as [Hi|(r0 & R1 & R2 & R3)].
      * apply cut_in' in Hi. destruct Hi as [[= <- <-]|Hi]; [right; exists r; split; [left; reflexivity|auto]|].
        apply hdrop_in in Hi. left. tauto.
      * right. exists r0. split; [right; exact R1|auto].
    + destruct (IH c s H H2) as (c2 & s2 & E2 & O2 & M2 & I2). exists c2, s2. split; [exact E2|]. split; [exact O2|]. split; [congruence|].
      intros k0 b0 Hin. destruct (I2 _ _ Hin) as [Hi|(r0 & R1 & R2 & R3)]; [left; exact Hi|right]. exists r0. split; [right; exact R1|auto].
Qed.
End Hits.

(** Reload: every entry comes back in order. *)
Lemma loadFile_load unpack hash s : Forall (good_entry unpack) s -> forall c,
  loadFile unpack hash (map newCacheItemJSON (map snd s)) c = load lruKey bytes matchesKey hash c s.
Proof.
  induction 1 as [|[k b] s (m & w & Kok & Mok & Hn & Hw & Hu & Hb) _ IH]; intros c; [reflexivity|]. cbn [map loadFile load fst snd] in *.
  rewrite (blob_reload _ k m w b Kok Mok Hn Hw) by (try assumption; destruct (unpack w); congruence).
  assert (Ek : j_key (newCacheItemJSON b) = k) by (rewrite (f_json k m w b Kok Hb Mok); reflexivity). rewrite Ek.
  destruct (addKey _ _ _ _ _ _ _); [apply IH|reflexivity].
Qed.

Lemma reload_order unpack h1 h2 cap c s :
  OK h1 c s -> Forall (good_entry unpack) s ->
  (forall a b, In a (map fst s) -> In b (map fst s) -> h2 a = h2 b -> a = b) ->
  (cap <= 0 \/ Z.of_nat (length s) <= cap)%Z ->
  exists recs c', saveFile c = Some recs /\ loadFile unpack h2 recs (cache_new cap) = Some c' /\ OK h2 c' s.
Proof.
  intros [R Bd] G I2 Hc. exists (map newCacheItemJSON (rev (map snd s))). unfold saveFile. rewrite (serialize_rep _ _ _ _ _ _ R). cbn [option_map].
  rewrite <- map_rev, (loadFile_load unpack h2 (rev s)) by (apply Forall_rev; exact G).
  assert (ND : NoDup (map fst s)) by (destruct R as [_ Nh]; eapply keys_nodup; eauto).
  assert (Gd : forall k b, In (k, b) s -> good _ _ matchesKey k b).
  { intros k b Hin. rewrite Forall_forall in G. destruct (G _ Hin) as (m & w & Kok & _ & _ & _ & _ & Hb). eapply good_blob; eauto. }
  destruct (load_rep lruKey bytes matchesKey key_eq h2 cap s I2 ND Hc Gd [] s (cache_new cap)) as (c' & E & R' & M).
  { rewrite app_nil_r. reflexivity. } { apply new_rep. } { reflexivity. }
  exists c'. split; [rewrite map_rev; reflexivity|]. split; [exact E|]. split; [exact R'|]. unfold bounded. rewrite M. exact Hc.
Qed.
