(** C05: a cache hit is never an answer to a different question. *)
From Verif Require Import Base Bytes Dns Net Blob_model Blob_spec Lru_model Cache_model Cache_spec Cache_proofs5 Cache_demo.
Open Scope N_scope.

(** Two queries have the same cache key iff they agree on name (ignoring case), type, class, CD
    bit, DO bit and the last client-subnet option (prefix length and address). *)
Theorem C05_cache_key_exact :
  forall ipString q1 q2, ip_text_ok ipString -> query_ok q1 -> query_ok q2 ->
    (lruKeyFromQuery ipString q1 = lruKeyFromQuery ipString q2 <-> same_question q1 q2) /\
    lruKeyFromQuery ipString q1 <> None.
Proof. exact cache_key_iff. Qed.
Print Assumptions C05_cache_key_exact.

(** After any history and with any hash function, what a lookup finds is an answer upstream gave
    to the same question. *)
Theorem C05_hit_same_question :
  forall ipString pack unpack hash o cap l c q now r pf,
    ip_text_ok ipString -> opts_ok o -> Forall event_ok l -> faithful pack unpack l -> query_ok q ->
    exec_all ipString pack unpack hash o (cache_new cap) l = Some c ->
    peek ipString unpack hash c q now = Some (r, pf) ->
    exists e q0 t0 a, In e l /\ arrival e = Some (q0, t0, a) /\ same_question q0 q /\ aged_msg q t0 now a r.
Proof. exact hit_same_question. Qed.
Print Assumptions C05_hit_same_question.

Definition ecs (addr : bytes) (mask : N) : msg :=
  Msg 7 false 0 false false true false false false 0 [Q "Example.com." 1 1] [] [] [RR "." TypeOPT 4096 32768 (DOPT [ECS 1 mask 0 addr])].
Example C05_hyps : ip_text_ok toy_ip /\ query_ok (ecs [10;0;0;0] 24) /\ query_ok (ecs [10;0;1;0] 24).
Proof.
  split; [exact toy_ip_ok|]. split; (split; [discriminate|]); (split; [repeat constructor; vm_compute; congruence|]);
  repeat constructor; cbn; auto; reflexivity.
Qed.
Example C05_differ : lruKeyFromQuery toy_ip (ecs [10;0;0;0] 24) <> lruKeyFromQuery toy_ip (ecs [10;0;1;0] 24).
Proof. vm_compute. congruence. Qed.
(** Mapped and plain IPv4 are one key. *)
Example C05_same : lruKeyFromQuery toy_ip (ecs [10;0;0;0] 24) = lruKeyFromQuery toy_ip (ecs (v4prefix ++ [10;0;0;0]) 24).
Proof. vm_compute. reflexivity. Qed.
(** Every hash collides, yet the other question is not answered. *)
Example C05_collision :
  match exec_all toy_ip toy_pack (toy_unpack "a.com." "b.com.") hash7 opts (cache_new 0) [EStore (query "a.com." 1) t0 (Ans (good_answer "a.com."))] with
  | Some c => peek toy_ip (toy_unpack "a.com." "b.com.") hash7 c (query "b.com." 1) t0 = None /\
              peek toy_ip (toy_unpack "a.com." "b.com.") hash7 c (query "A.com." 1) t0 = Some (set_question [Q "A.com." 1 1] (good_answer "a.com."), true)
  | None => False
  end.
Proof. vm_compute. auto. Qed.
