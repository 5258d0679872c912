(** C20: request de-duplication. *)
From Verif Require Import Base Bytes Net Dns Cidr_spec Net_spec Dedup_model Dedup_spec Dedup_proofs Dedup_proofs2 Dedup_proofs3.
Local Open Scope nat_scope.

(** Queries have the same key exactly when they are the same question. *)
Theorem C20_key : forall q q', subnet_ok q -> subnet_ok q' ->
  ((exists k, dedup_key q = Some k /\ dedup_key q' = Some k) <-> same_question q q').
Proof. exact key_same. Qed.
Print Assumptions C20_key.

(** In all executions at most one upstream query per question is in progress. *)
Theorem C20_one_upstream : forall l s tr t q t' q', dedup_exec dedup_init l = Some (s, tr) -> subnets_ok tr ->
  upstream tr t q -> upstream tr t' q' -> same_question q q' -> t = t'.
Proof. exact one_upstream. Qed.
Print Assumptions C20_one_upstream.

(** A call asks upstream exactly when no call for the same question is in progress. *)
Theorem C20_joins : forall l s tr1 t q o tr2, dedup_exec dedup_init l = Some (s, tr1 ++ (DEnter t q, o) :: tr2) ->
  subnets_ok (tr1 ++ (DEnter t q, o) :: tr2) ->
  (o = ONone <-> exists t' q', in_progress tr1 t' q' /\ same_question q q') /\ (o = ONone \/ o = OAsk q).
Proof. exact asks_iff. Qed.
Print Assumptions C20_joins.

(** A call returns upstream's answer to its own query, or to the same question in progress when it began,
    with its own ID and question. *)
Theorem C20_outcome : forall l s tr t r, dedup_exec dedup_init l = Some (s, tr) -> subnets_ok tr -> returned tr t r ->
  exists q, began tr t q /\
  ((asked tr t q /\ exists r0, replied tr t r0 /\ personal q r0 r) \/
   (exists t' q' r0 tr1 tr2, tr = tr1 ++ (DEnter t q, ONone) :: tr2 /\ in_progress tr1 t' q' /\ same_question q q' /\ replied tr t' r0 /\ personal q r0 r)).
Proof. exact outcome. Qed.
Print Assumptions C20_outcome.

(** No call asks or returns twice. *)
Theorem C20_once : forall l s tr t, dedup_exec dedup_init l = Some (s, tr) ->
  length (filter (fun x => match snd x with OAsk _ => Nat.eqb (tid (fst x)) t | _ => false end) tr) <= 1 /\
  length (filter (fun x => match snd x with OReturn _ => Nat.eqb (tid (fst x)) t | _ => false end) tr) <= 1.
Proof. exact once. Qed.
Print Assumptions C20_once.

(** No call hangs: it can return, or an upstream query for its question is in progress. *)
Theorem C20_progress : forall l s tr t q, dedup_exec dedup_init l = Some (s, tr) -> subnets_ok tr -> began tr t q ->
  (exists r, returned tr t r) \/
  (exists e s' r, (e = DRemove t \/ e = DWake t) /\ dedup_step s e = Some (s', OReturn r)) \/
  (exists t' q', upstream tr t' q' /\ (q' = q /\ t' = t \/ same_question q q')).
Proof. exact progress. Qed.
Print Assumptions C20_progress.

(** The opcode is not part of the question. *)
Theorem C20_opcode_refuted : exists q q', same_question q q' /\ m_opcode q = 0%N /\ m_opcode q' = 4%N.
Proof. exact opcode_shared. Qed.
Print Assumptions C20_opcode_refuted.

Example C20_run : option_map (fun x => map snd (snd x)) (dedup_exec dedup_init demo_events) =
  Some [OAsk (dq 7 "a."); ONone; OAsk (dq 9 "b."); ONone; OReturn (Ans (set_question [Q "A." 1 1] (da 8 "a."))); ONone; OReturn (Ans (da 7 "a.")); OReturn Drop; OAsk (dq 5 "a.")].
Proof. exact demo_events_run. Qed.
Example C20_hypothesis : forall s tr, dedup_exec dedup_init demo_events = Some (s, tr) -> subnets_ok tr.
Proof. exact demo_subnets. Qed.
