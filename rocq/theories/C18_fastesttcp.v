(** C18: fastest-tcp reorders the records of the type asked for, and returns upstream's answer as it is when
    the probes do not give an order. The records are the same when all are waited for, or when the fastest is
    the first or last one; otherwise one is lost. *)
From Verif Require Import Base Bytes Dns FastestTcp_model FastestTcp_spec FastestTcp_proofs.
Local Open Scope nat_scope.

Theorem C18_reorders : forall (waitAll : bool) ttlmin arr q a T, applies q a T -> let c := candidates T (m_answer a) in probes (length c) arr -> usable waitAll c arr ->
  exists b ns ks, fastest_tcp waitAll ttlmin arr q (Ans a) = Some (Ans b) /\ same_but_answer a b /\
    replaced T (m_answer a) ns (m_answer b) /\ in_order ttlmin c ks ns /\ length ks = length c /\
    (exists x, hd_error arr = Some x /\ hd_error ks = Some (fst x)) /\
    if waitAll then ks = map fst arr /\ Permutation ks (seq 0 (length c))
    else forall x, hd_error arr = Some x -> fst x = 0 \/ S (fst x) = length c ->
         Permutation ks (seq 0 (length c)) /\ tl ks = filter (fun j => negb (Nat.eqb j (fst x))) (seq 0 (length c)).
Proof. exact reordered_spec. Qed.
Print Assumptions C18_reorders.
Example C18_reorders_hyps : applies ft_q ft_a 1 /\ probes 3 [(2, true); (0, true); (1, true)] /\
  usable true (candidates 1 (m_answer ft_a)) [(2, true); (0, true); (1, true)] /\ usable false (candidates 1 (m_answer ft_a)) [(2, true); (0, true); (1, true)].
Proof. exact ft_hyps. Qed.
Example C18_reorders_run : option_map (fun r => match r with Ans b => map rr_data (m_answer b) | _ => [] end) (fastest_tcp true 0 [(2, true); (0, true); (1, true)] ft_q (Ans ft_a)) =
  Some [DOTHER []; DA [192;0;2;3]%N; DA [192;0;2;1]%N; DA [192;0;2;2]%N].
Proof. exact ft_run. Qed.

Theorem C18_unchanged : forall waitAll ttlmin arr q r,
  match r with Ans a => m_question q <> [] /\ forall T, applies q a T -> let c := candidates T (m_answer a) in probes (length c) arr /\ ~ usable waitAll c arr | _ => True end ->
  fastest_tcp waitAll ttlmin arr q r = Some r.
Proof. exact not_reordered. Qed.
Print Assumptions C18_unchanged.
Example C18_unchanged_run : fastest_tcp true 300 [(2, true); (0, false)] ft_q (Ans ft_a) = Some (Ans ft_a).
Proof. reflexivity. Qed.

(** The second of three is the fastest: it is in the answer twice, and the third is gone. *)
Theorem C18_lost_refuted : exists b, fastest_tcp false 300 [(1, true)] ft_q (Ans ft_a) = Some (Ans b) /\
  m_answer b = [RR "w.a." 46 1 60 (DOTHER []); set_ttl 300 (ft_rr 2); set_ttl 300 (ft_rr 1); set_ttl 300 (ft_rr 2)].
Proof. exact lost_refuted. Qed.
Print Assumptions C18_lost_refuted.
