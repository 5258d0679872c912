(** C09: NXDOMAIN hardening only denies names under a cached NXDOMAIN. *)
From Verif Require Import Base Bytes Dns Net Blob_model Blob_spec Lru_model Cache_model Cache_spec Cache_proofs3 Cache_proofs5 Cache_demo.
Open Scope N_scope.

(** Whenever a query that is not itself cached is answered from the cache, an ancestor of its name
    holds a live NXDOMAIN and no closer ancestor is cached, and hardening does fire if the nearest
    cached ancestor is a live NXDOMAIN. The code takes for ancestors what follows a dot. *)
Theorem C09_hardening :
  forall ipString pack unpack hash o cap l c f q now,
    ip_text_ok ipString -> Forall event_ok l -> query_ok q ->
    exec_all ipString pack unpack hash o (cache_new cap) l = Some c ->
    forall x t, m_question q = x :: t -> ~ flush_query o q ->
    peek ipString unpack hash c q now = None ->
    forall c' r, resolve_lookup ipString unpack hash o f q now c = Some (c', r) ->
    ((exists eff, r = Some (nxdomain q, eff)) /\ o_harden o = true /\
       exists p a0 pf, dot_ancestor p (q_name x) /\ peek ipString unpack hash c (asking q p) now = Some (a0, pf) /\
         m_rcode a0 = RcodeNameError /\
         forall p', dot_ancestor p' (q_name x) -> dot_ancestor p p' -> peek ipString unpack hash c (asking q p') now = None)
    \/ (r = None /\ (o_harden o = true -> forall p a0 pf, dot_ancestor p (q_name x) ->
           peek ipString unpack hash c (asking q p) now = Some (a0, pf) -> m_rcode a0 = RcodeNameError ->
           exists p' a1 pf1, dot_ancestor p' (q_name x) /\ dot_ancestor p p' /\
             peek ipString unpack hash c (asking q p') now = Some (a1, pf1))).
Proof. exact harden_cases. Qed.
Print Assumptions C09_hardening.

(** For names without escapes these are the ancestors in the domain tree, the root excepted. *)
Theorem C09_ancestors : forall p n, no_escape n -> (dot_ancestor p n <-> proper_ancestor p n).
Proof. exact no_escape_dot. Qed.
Print Assumptions C09_ancestors.

Definition unp := toy_unpack "a.com." "b.com.".
Definition nx_hist := [EStore (query "b.com." 1) t0 (Ans (nx_answer "b.com."))].

(** Finding: the name [a\.b.com.] has two labels and is not below [b.com.], but the code splits
    it at the escaped dot and denies it once [b.com.] is cached as NXDOMAIN. *)
Theorem C09_escaped_refuted :
  exists l c c' q x eff,
    Forall event_ok l /\ faithful toy_pack unp l /\ query_ok q /\ m_question q = [x] /\
    exec_all toy_ip toy_pack unp hash7 opts (cache_new 0) l = Some c /\
    peek toy_ip unp hash7 c q t0 = None /\
    resolve_lookup toy_ip unp hash7 opts (fun m => m) q t0 c = Some (c', Some (nxdomain q, eff)) /\
    forall p, proper_ancestor p (q_name x) -> peek toy_ip unp hash7 c (asking q p) t0 = None.
Proof. exact escaped_denied. Qed.
Print Assumptions C09_escaped_refuted.

(** The name and its ancestors, in the case of an unescaped name *)
Example C09_denied :
  match exec_all toy_ip toy_pack unp hash7 opts (cache_new 0) nx_hist with
  | Some c => option_map snd (resolve_lookup toy_ip unp hash7 opts (fun m => m) (query "x.y.b.com." 1) t0 c)
                = Some (Some (nxdomain (query "x.y.b.com." 1), FromCache)) /\
              option_map snd (resolve_lookup toy_ip unp hash7 opts (fun m => m) (query "x.com." 1) t0 c) = Some None
  | None => False
  end.
Proof. vm_compute. auto. Qed.
Example C09_hyps : Forall event_ok nx_hist /\ query_ok (query "x.y.b.com." 1) /\ no_escape "x.y.b.com." /\ proper_ancestor "b.com." "x.y.b.com.".
Proof.
  split; [repeat constructor; cbn; try discriminate; vm_compute; congruence|].
  split; [repeat constructor; cbn; try discriminate; vm_compute; congruence|]. split; [reflexivity|].
  exists ["x"; "y"]%string. split; [discriminate|]. split; [reflexivity|cbn; auto].
Qed.
Example C09_dot : dot_ancestor "b.com." "a\.b.com." /\ ~ dot_ancestor "" "a.com.".
Proof. split; [split; [exists "a\"%string; reflexivity|reflexivity]|]. intros [_ H]. discriminate. Qed.
