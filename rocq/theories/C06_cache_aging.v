(** C06: cached answers are aged and never served stale. *)
From Verif Require Import Base Bytes Dns Net Blob_model Blob_spec Lru_model Cache_model Cache_spec Cache_proofs5 Cache_demo.
Open Scope N_scope.

(** After any interleaving of lookups, stores, prefetches, evictions and collections, a query that
    is answered without going upstream gets the flush reply, or an answer upstream gave earlier to
    the same question, aged ([hit_source]) and then shuffled, or the NXDOMAIN of hardening (C09). *)
Theorem C06_served_is_fair :
  forall ipString pack unpack hash o cap l c f q now c' r eff,
    ip_text_ok ipString -> opts_ok o -> Forall event_ok l -> faithful pack unpack l -> query_ok q ->
    exec_all ipString pack unpack hash o (cache_new cap) l = Some c ->
    resolve_lookup ipString unpack hash o f q now c = Some (c', Some (r, eff)) ->
    (flush_query o q /\ r = set_reply empty_msg q) \/
    (exists r0, hit_source pack o l q now r0 /\ r = f r0) \/
    (o_harden o = true /\ peek ipString unpack hash c q now = None /\ r = nxdomain q).
Proof. exact reply_cases. Qed.
Print Assumptions C06_served_is_fair.

(** No history makes the cache panic. *)
Theorem C06_cache_total :
  forall ipString pack unpack hash o cap l f q now,
    ip_text_ok ipString -> Forall event_ok l -> query_ok q ->
    exists c c' r, exec_all ipString pack unpack hash o (cache_new cap) l = Some c /\
      resolve_lookup ipString unpack hash o f q now c = Some (c', r).
Proof. exact cache_never_panics. Qed.
Print Assumptions C06_cache_total.

(** Conversely an answer just stored is served to the same question, aged, until it expires or a
    record's TTL runs out. *)
Theorem C06_stored_is_served :
  forall ipString pack unpack hash o cap l c e q0 t0 a n w q now r,
    ip_text_ok ipString -> opts_ok o -> Forall event_ok (l ++ [e]) ->
    exec_all ipString pack unpack hash o (cache_new cap) (l ++ [e]) = Some c ->
    arrival e = Some (q0, t0, a) -> lifetime o a = Some n -> pack a = Some w -> unpack w = Some a ->
    query_ok q -> same_question q0 q -> (now <= t0 + Z.of_N n * a_second)%Z -> aged_msg q t0 now a r ->
    exists pf, peek ipString unpack hash c q now = Some (r, pf).
Proof. exact fresh_answer_served. Qed.
Print Assumptions C06_stored_is_served.

Definition unp := toy_unpack "a.com." "b.com.".
Definition hist := [EStore (query "a.com." 1) t0 (Ans (good_answer "a.com.")); ELookup (query "b.com." 1) t0 (fun m => m); EGC t0].
Example C06_hyps : opts_ok opts /\ Forall event_ok hist /\ faithful toy_pack unp hist /\ query_ok (query "A.COM." 1).
Proof.
  split; [split; [vm_compute; congruence|discriminate]|]. split.
  { repeat constructor; cbn; try discriminate; try (vm_compute; congruence). }
  split; [|repeat constructor; cbn; try discriminate; vm_compute; congruence].
  intros e q t a w [<-|[<-|[<-|[]]]]; cbn [arrival]; try discriminate. intros [= <- <- <-] [= <-]. reflexivity.
Qed.
(** Served after 7.5 seconds with TTLs 13 and 23, not served after 20 seconds. *)
Example C06_aged :
  match exec_all toy_ip toy_pack unp hash7 opts (cache_new 5) hist with
  | Some c =>
      option_map (fun p => map rr_ttl (m_answer (fst p))) (peek toy_ip unp hash7 c (query "A.COM." 1) (t0 + 7500000000)%Z) = Some [13; 23] /\
      peek toy_ip unp hash7 c (query "A.COM." 1) (t0 + 20000000000)%Z = None
  | None => False
  end.
Proof. vm_compute. auto. Qed.
