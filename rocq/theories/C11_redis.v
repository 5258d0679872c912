(** C11: Redis keys and values. *)
From Verif Require Import Base Bytes Dns Net Blob_model Cache_model Cache_spec Redis_model Redis_spec Redis_proofs Redis_demo.
Open Scope N_scope.

(** Two queries, each with at most one client-subnet option, have the same key iff they agree on name
    (ignoring case), class, type, CD, presence of EDNS0 and DO, and client subnet. *)
Theorem C11_keys : forall ipString classString typeString keyPrefix q1 q2,
  class_text_ok classString -> type_text_ok typeString -> ip_text_ok ipString -> ip_no_slash ipString -> rquery_ok q1 -> rquery_ok q2 ->
  (keyFromQuery ipString classString typeString keyPrefix q1 = keyFromQuery ipString classString typeString keyPrefix q2 <-> same_query q1 q2) /\
  keyFromQuery ipString classString typeString keyPrefix q1 <> None.
Proof. exact redis_key_iff. Qed.
Print Assumptions C11_keys.
Example C11_keys_hyps : class_text_ok toy_class /\ type_text_ok toy_type /\ ip_text_ok hex_ip /\ ip_no_slash hex_ip /\
  rquery_ok (rq "a:IN:A::." [ECS 1 24 0 [10;0;0;0]]) /\ rquery_ok (rq "A:in:a::." []).
Proof. exact keys_hyps. Qed.

(** With two client-subnet options in each, different ones can have the same key. *)
Theorem C11_two_subnets_refuted : exists q1 q2, query_ok q1 /\ query_ok q2 /\ map subnet_id (subnets q1) <> map subnet_id (subnets q2) /\
  forall ipString classString typeString keyPrefix, ipString [1;1;1;1] = "1.1.1.1"%string -> ipString [41;1;1;1] = "41.1.1.1"%string -> ipString [1;2;3;4] = "1.2.3.4"%string ->
  keyFromQuery ipString classString typeString keyPrefix q1 = keyFromQuery ipString classString typeString keyPrefix q2.
Proof. exact two_subnets_refuted. Qed.
Print Assumptions C11_two_subnets_refuted.

Theorem C11_roundtrip : forall pack unpack m a w b s, pack a = Some w -> unpack w = Some a -> in_second (mt_timestamp m) s -> i64_ok s ->
  encodeCacheAnswer pack m a = Some b -> decodeCacheAnswer unpack b = Some (s, mt_prefetch m, a).
Proof. exact redis_roundtrip_second. Qed.
Print Assumptions C11_roundtrip.
Example C11_roundtrip_run : encodeCacheAnswer (fun _ => Some [7]) (Meta (Some 1700000000999999999%Z) None true) empty_msg = Some [1;1;0;0;0;0;101;83;241;0;7].
Proof. vm_compute. reflexivity. Qed.

Theorem C11_rejects : forall unpack b, (length b < 10)%nat \/ hd_error b <> Some 1 \/ unpack (skipn 10 b) = None -> decodeCacheAnswer unpack b = None.
Proof. exact redis_rejects. Qed.
Print Assumptions C11_rejects.
Theorem C11_accepts : forall unpack b ts pf a, decodeCacheAnswer unpack b = Some (ts, pf, a) ->
  exists f t w, b = 1 :: f :: t ++ w /\ length t = 8%nat /\ unpack w = Some a /\ pf = N.odd f.
Proof. exact redis_accepts. Qed.
Print Assumptions C11_accepts.
Example C11_accepts_run : decodeCacheAnswer (fun _ => Some empty_msg) [1;3;0;0;0;0;0;0;0;2] = Some (2%Z, true, empty_msg).
Proof. vm_compute. reflexivity. Qed.

(** Whatever was stored, in whatever order the background writes reached the server: a hit is an answer stored
    for the same query, aged from the second of its timestamp, at most as long after the write as it had left when
    it was stored. *)
Theorem C11_hit : forall ipString classString typeString pack unpack keyPrefix l st q now r pf,
  class_text_ok classString -> type_text_ok typeString -> ip_text_ok ipString -> ip_no_slash ipString ->
  Forall revent_ok l -> rfaithful pack unpack l -> rquery_ok q -> rtime_ok now ->
  rexec_all ipString classString typeString pack keyPrefix rempty l = Some st ->
  redis_lookup ipString classString typeString unpack keyPrefix q now st = Some (Some (r, pf)) ->
  exists q0 m a t ts ex i t', In (RStore q0 m a t true) l /\ In (RCommit i t' true) l /\ same_query q0 q /\
    mt_timestamp m = Some ts /\ mt_expiry m = Some ex /\ pf = mt_prefetch m /\ aged_msg q (whole ts) now a r /\ (now < t' + (ex - t))%Z.
Proof. exact redis_hit. Qed.
Print Assumptions C11_hit.
Example C11_hit_run : Forall revent_ok redis_history /\ rfaithful rpack runpack redis_history /\ rtime_ok (1700000008 * second)%Z /\
  exists st, rexec_all hex_ip toy_class toy_type rpack "p" rempty redis_history = Some st /\
  exists r, redis_lookup hex_ip toy_class toy_type runpack "p" (rq "A." []) (1700000008 * second)%Z st = Some (Some (r, true)) /\ map rr_ttl (m_answer r) = [293].
Proof. exact hit_run. Qed.

(** A stored answer is found again, whatever else is in the database, until its deadline. *)
Theorem C11_serves : forall ipString classString typeString pack unpack keyPrefix st q0 m a t ts ex w t' q now r,
  class_text_ok classString -> type_text_ok typeString -> ip_text_ok ipString -> ip_no_slash ipString ->
  rquery_ok q0 -> rquery_ok q -> same_query q0 q -> mt_timestamp m = Some ts -> mt_expiry m = Some ex -> rtime_ok ts -> rtime_ok now ->
  pack a = Some w -> unpack w = Some a -> (t < ex)%Z -> (now < t' + (ex - t))%Z -> aged_msg q (whole ts) now a r ->
  exists st', rexec_all ipString classString typeString pack keyPrefix st [RStore q0 m a t true; RCommit (length (r_pending st)) t' true] = Some st' /\
    redis_lookup ipString classString typeString unpack keyPrefix q now st' = Some (Some (r, mt_prefetch m)).
Proof. exact redis_serves. Qed.
Print Assumptions C11_serves.

(** Neither storing nor looking up panics, whatever is in the database (values of other programs too). *)
Theorem C11_total : forall ipString classString typeString pack unpack keyPrefix st l q now,
  Forall revent_ok l -> query_ok q ->
  (exists st', rexec_all ipString classString typeString pack keyPrefix st l = Some st') /\
  (exists r, redis_lookup ipString classString typeString unpack keyPrefix q now st = Some r).
Proof. exact (fun i c t p u k st l q now F Q => conj (redis_total i c t p k l F st) (lookup_total i c t u k st q now Q)). Qed.
Print Assumptions C11_total.
Example C11_foreign_run : redis_lookup hex_ip toy_class toy_type runpack "p" (rq "A." []) 5%Z
  (RState [] [("pa.:CLASS1:TYPE1::true:"%string, ([9;9], 10%Z))]) = Some None.
Proof. vm_compute. reflexivity. Qed.
