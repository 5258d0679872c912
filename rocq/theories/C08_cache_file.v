(** C08: the stored form of cache entries and the cache file. *)
From Verif Require Import Base Bytes Dns Net Blob_model Blob_spec Lru_model Lru_spec Lru_proofs2 Cache_model Cache_spec Cache_proofs5 Cache_demo.
Open Scope N_scope.

(** Reading back an encoded entry yields its key, times, flag and message; it matches its key only. *)
Theorem C08_entry_roundtrip :
  forall k m w, key_ok k -> meta_ok m ->
    exists b, newCacheBlobFromWire k m w = Some b /\ newCacheItemJSON b = ItemJSON k m w /\
      b_key b = k /\ b_message b = w /\ b_prefetch b = mt_prefetch m /\
      nanoTime (b_timestamp b) = mt_timestamp m /\ nanoTime (b_expiry b) = mt_expiry m /\
      (forall k', matchesKey b k' = true <-> k' = k).
Proof. exact codec_roundtrip. Qed.
Print Assumptions C08_entry_roundtrip.

(** An entry is refused only if a string does not fit the 16-bit length. *)
Theorem C08_entry_refused :
  forall k m w, newCacheBlobFromWire k m w = None <->
    (65535 < N.of_nat (String.length (q_name (k_q k))) \/ 65535 < N.of_nat (String.length (k_net k))).
Proof. exact codec_rejects. Qed.
Print Assumptions C08_entry_refused.

(** Saving a cache and loading the records into an empty cache that is large enough restores the
    entries in the same order of use, also if the hash function differs. *)
Theorem C08_file_roundtrip :
  forall unpack h1 h2 cap1 cap2 ops c outs,
    Forall (fun o => match o with Add _ _ k b => good_entry unpack (k, b) | _ => True end) ops ->
    run lruKey bytes matchesKey h1 (cache_new cap1) ops = Some (c, outs) ->
    inj_on lruKey h2 (keys_of lruKey bytes ops) ->
    (cap2 <= 0 \/ Z.of_nat (size bytes c) <= cap2)%Z ->
    exists blobs recs c', serialize bytes c = Some blobs /\ saveFile c = Some recs /\
      loadFile unpack h2 recs (cache_new cap2) = Some c' /\ serialize bytes c' = Some blobs /\ size bytes c' = size bytes c.
Proof. exact file_roundtrip. Qed.
Print Assumptions C08_file_roundtrip.

(** Any list of records loads without a crash and within the capacity. *)
Theorem C08_load_total :
  forall unpack hash cap recs, Forall rec_ok recs ->
    exists c, loadFile unpack hash recs (cache_new cap) = Some c /\ ((0 < cap)%Z -> (Z.of_nat (size bytes c) <= cap)%Z).
Proof. exact load_total. Qed.
Print Assumptions C08_load_total.

(** A restart does not make the cache serve anything unfair: what is found after saving, loading
    under another hash and going on is an answer upstream gave before or after the restart. *)
Theorem C08_restart_fair :
  forall ipString pack unpack h1 h2 o cap1 cap2 l1 l2 c1 recs c2 c3 q now r pf,
    ip_text_ok ipString -> opts_ok o -> Forall event_ok (l1 ++ l2) -> faithful pack unpack (l1 ++ l2) -> query_ok q ->
    exec_all ipString pack unpack h1 o (cache_new cap1) l1 = Some c1 ->
    saveFile c1 = Some recs -> loadFile unpack h2 recs (cache_new cap2) = Some c2 ->
    exec_all ipString pack unpack h2 o c2 l2 = Some c3 ->
    peek ipString unpack h2 c3 q now = Some (r, pf) -> hit_source pack o (l1 ++ l2) q now r.
Proof. exact restart_fair. Qed.
Print Assumptions C08_restart_fair.

Definition k1 := Key (Q "a.com." 1 1) "x" true false 24.
Definition m1 := Meta (Some 5%Z) (Some 9%Z) true.
Example C08_hyps : key_ok k1 /\ meta_ok m1.
Proof. split; [repeat split; vm_compute; congruence|]. split; (split; [split; vm_compute; congruence|congruence]). Qed.
Example C08_bytes : newCacheBlobFromWire k1 m1 [9; 9] =
  Some ([0; 1; 0;0;0;0;0;0;0;5; 0;0;0;0;0;0;0;9; 1; 0;1; 0;1; 24; 0;1; 0;6] ++ [120; 97; 46; 99; 111; 109; 46] ++ [9; 9]).
Proof. vm_compute. reflexivity. Qed.
(** A history survives a restart; malformed records are skipped. *)
Example C08_restart :
  match exec_all toy_ip toy_pack (toy_unpack "a.com." "b.com.") hash7 opts (cache_new 0) [EStore (query "a.com." 1) t0 (Ans (good_answer "a.com."))] with
  | Some c => match saveFile c with
    | Some recs => match loadFile (toy_unpack "a.com." "b.com.") (fun _ => 3) (recs ++ [ItemJSON k1 m1 [9]; ItemJSON k1 m1 []; ItemJSON (Key (Q "" 1 1) "" false false 0) m1 [1]]) (cache_new 1) with
      | Some c' => size bytes c' = 1%nat /\
          option_map (fun p => map rr_ttl (m_answer (fst p))) (peek toy_ip (toy_unpack "a.com." "b.com.") (fun _ => 3) c' (query "a.com." 1) (t0 + 1000000000)%Z) = Some [19; 29]
      | None => False end
    | None => False end
  | None => False
  end.
Proof. vm_compute. auto. Qed.
