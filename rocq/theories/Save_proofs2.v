From Verif Require Import Base Base_proofs Bytes Bytes_proofs Dns Net Blob_model Blob_spec Blob_proofs
  Lru_model Lru_spec Lru_proofs Lru_proofs2 Cache_model Cache_spec Cache_proofs Cache_proofs2 Cache_proofs3 Cache_proofs4 Cache_proofs5 Save_model Save_spec Save_proofs.
From Coq Require Import ZifyBool ZifyNat ZifyN.
Open Scope N_scope.

(** Loading: the records up to the first value that is none *)
Fixpoint readable (l : list (option itemJSON)) : list itemJSON := match l with Some r :: l' => r :: readable l' | _ => [] end.
Lemma decode_is unpack hash l : forall c, decodeFile unpack hash l c = loadFile unpack hash (readable l) c.
Proof. induction l as [|[r|] l IH]; intros c; cbn; [reflexivity| |reflexivity]. destruct (toCacheBlob _ r) as [b|]; [|apply IH]. destruct (addKey _ _ _ _ _ _ c); [apply IH|reflexivity]. Qed.
Lemma readable_whole recs rest : (rest = [] \/ exists junk, rest = None :: junk) -> readable (map Some recs ++ rest) = recs.
Proof. intros [->|[junk ->]]; induction recs; cbn; congruence. Qed.

Section MEM.
Context (ipString : bytes -> string) (pack : msg -> option bytes) (unpack : bytes -> option msg) (o : options).
Hypothesis ip_ok : ip_text_ok ipString.
Hypothesis opt_ok : opts_ok o.
Notation from := (from_history ipString pack o).
Definition well (l : list event) : Prop := Forall event_ok l.
Lemma entry_src l s k b : from l s -> In (k, b) s -> exists m w, key_ok k /\ meta_ok m /\ newCacheBlobFromWire k m w = Some b.
Proof.
  intros F1 Hin. destruct (F1 _ _ Hin) as (la & e & lb & -> & (q0 & t0 & a & m & St & Eok & Hk0 & Sm & Nb) & _).
  assert (Har : arrival e = Some (q0, t0, a) /\ m_tc a = false).
  { unfold stores in St. destruct (arrival e) as [[[q1 t1] a1]|]; [|discriminate]. destruct (m_tc a1) eqn:Tc; [discriminate|].
    destruct (storeInCache o t1 a1); [|discriminate]. destruct (pack a1); [|discriminate]. inversion St; subst. auto. }
  destruct Har as [Har Tc]. destruct (arrival_ok _ _ _ _ Eok Har) as (Hq0 & Ht0 & Htt).
  destruct (query_key ipString ip_ok q0 Hq0) as (k0 & Hk0' & Kok). assert (k0 = k) by congruence. subst k0.
  pose proof (storeInCache_spec o t0 a Htt Tc) as SP. rewrite Sm in SP. destruct (lifetime o a) as [n|] eqn:Ln; [|contradiction].
  destruct SP as [Sts Sex]. pose proof (lifetime_bound _ _ _ opt_ok Htt Ln) as Bn.
  unfold newCacheBlob in Nb. destruct (pack a) as [w|] eqn:Pk; [|discriminate]. exists m, w. split; [exact Kok|]. split; [|exact Nb].
  split; [rewrite Sts|rewrite Sex]; unfold time_ok, i64_ok, now_ok, add_seconds, a_second, second, max_ttl, Cache_model.MaxUint32 in *; lia.
Qed.
(** The file: records of entries that come from a history *)
Definition goodf (T : list event) (recs : list itemJSON) : Prop := exists l s, incl l T /\ from l s /\ Forall (fun r => exists k b, In (k, b) s /\ r = newCacheItemJSON b) recs.
Definition good (T : list event) (a : backend) : Prop := exists l s, incl l T /\ OK (fst a) (snd a) s /\ from l s.
Lemma good_op T a e a' : good T a -> event_ok e -> mem_op ipString pack unpack o e a a' -> good (T ++ [e]) a'.
Proof.
  intros (l & s & I & O & F) Ev [Eh Ex]. destruct a as [h c], a' as [h' c']. cbn in *. subst h'. destruct (ok_exec ipString pack unpack h ip_ok o c s l e O F Ev) as (c1 & s1 & E1 & O1 & _ & F1). assert (c1 = c') by congruence. subst c1.
  exists (l ++ [e]), s1. split; [|split; assumption]. apply incl_app; [apply incl_appl, I|apply incl_appr, incl_refl].
Qed.
Lemma good_rec T a : good T a -> goodf T (mem_records a).
Proof.
  intros (l & s & I & [Rp B] & F). exists l, s. split; [exact I|]. split; [exact F|]. unfold mem_records, saveFile. rewrite (serialize_rep _ _ _ _ _ _ Rp). cbn [option_map]. apply Forall_forall. intros r Hr. apply in_map_iff in Hr. destruct Hr as (b & <- & Hb).
  apply in_rev, in_map_iff in Hb. destruct Hb as ([k b'] & <- & Hin). exists k, b'. split; [exact Hin|reflexivity].
Qed.
Lemma good_more T e d : goodf T d -> goodf (T ++ [e]) d.
Proof. intros (l & s & I & R). exists l, s. split; [apply incl_appl, I|exact R]. Qed.
Lemma good_load T h cap recs c : goodf T recs -> loadFile unpack h recs (cache_new cap) = Some c -> good T (h, c).
Proof.
  intros (l & s & I & F & FR) L. assert (RO : Forall rec_ok recs).
  { eapply Forall_impl; [|exact FR]. intros r (k & b & Hin & ->). destruct (entry_src l s k b F Hin) as (m & w & Kok & Mok & Nb). rewrite (f_json k m w b Kok Nb Mok). destruct Kok as (P & Q & C & _). repeat split; assumption. }
  destruct (ok_load unpack h recs (cache_new cap) [] (ok_new h cap) RO) as (c' & s' & L' & O' & _ & I'). assert (c' = c) by congruence. subst c'. exists l, s'. split; [exact I|]. split; [exact O'|].
  intros k b Hin. destruct (I' k b Hin) as [[]|(r & Hr & -> & Tb)]. rewrite Forall_forall in FR. destruct (FR r Hr) as (k & b' & Hin' & ->). destruct (entry_src l s k b' F Hin') as (m & w & Kok & Mok & Nb).
  rewrite (f_json k m w b' Kok Nb Mok) in *. cbn [j_key j_meta j_msg]. unfold toCacheBlob in Tb. cbn [j_key j_meta j_msg] in Tb. destruct (_ || _); [discriminate|]. destruct (negb _); [discriminate|]. assert (b = b') by congruence. subst. apply F, Hin'.
Qed.
Lemma good_firstn T n recs : goodf T recs -> goodf T (firstn n recs).
Proof. intros (l & s & I & F & FR). exists l, s. split; [exact I|]. split; [exact F|]. apply Forall_forall. intros r Hr. rewrite Forall_forall in FR. apply FR. eapply firstn_in, Hr. Qed.
Lemma good_empty T : goodf T [].
Proof. exists [], []. split; [intros x []|]. split; [intros k b []|constructor]. Qed.
Lemma good_boot T f a : goodf T f -> mem_boot unpack (Some f) a -> good T a.
Proof.
  intros G (cap & values & L & V). destruct a as [h c]. cbn in L. destruct V as [->|(recs & n & rest & [= <-] & -> & R)]; cbn in L.
  - apply (good_load T h cap [] c (good_empty T)). exact L.
  - rewrite decode_is, readable_whole in L by exact R. eapply good_load; [apply good_firstn, G|exact L].
Qed.
Lemma good_none T a : mem_boot unpack None a -> good T a.
Proof.
  intros (cap & values & L & V). destruct a as [h c]. cbn in L. destruct V as [->|(recs & n & rest & [=] & _)]. apply (good_load T h cap [] c (good_empty T)). exact L.
Qed.
Lemma evs_events t : evs t = events t. Proof. reflexivity. Qed.
Theorem restarts h cap t s q now r pf :
  run (mem_op ipString pack unpack o) mem_records (mem_boot unpack) (start (h, cache_new cap) None) t s -> Forall event_ok (events t) -> faithful pack unpack (events t) -> query_ok q ->
  peek ipString unpack (fst (cache s)) (snd (cache s)) q now = Some (r, pf) -> given o (events t) q now r.
Proof.
  intros H Ev Fa Hq P. assert (G0 : good [] (h, cache_new cap)) by (exists [], []; split; [intros x []|]; split; [apply ok_new|intros k b []]).
  destruct (preserved (mem_op ipString pack unpack o) mem_records (mem_boot unpack) event_ok good goodf good_op good_rec good_more good_boot good_none (h, cache_new cap) t s G0 H Ev) as ((l & s1 & I & O & F) & _).
  rewrite evs_events in I. rewrite (peek_view ipString unpack (fst (cache s)) ip_ok (snd (cache s)) s1 q now O Hq) in P.
  assert (Wl : Forall event_ok l) by (apply Forall_forall; intros e He; rewrite Forall_forall in Ev; apply Ev, I, He).
  assert (HS : hit_source pack o l q now r) by (eapply (view_source ipString pack unpack); eauto).
  destruct HS as (l1 & e & l2 & q0 & t0 & a & n & -> & Ar & Sq & Lt & Nw & Ag & _). exists e, q0, t0, a, n. split; [apply I, in_or_app; right; left; reflexivity|]. auto 8.
Qed.
End MEM.
(** A cache that has gone through a history loads from what is left of its file, whatever comes after *)
Theorem damaged unpack hash cap recs rest : (rest = [] \/ exists junk, rest = None :: junk) ->
  loadFromFile unpack hash (Some (map Some recs ++ rest)) cap = loadFile unpack hash recs (cache_new cap).
Proof. intros R. unfold loadFromFile. rewrite decode_is, readable_whole by exact R. reflexivity. Qed.
