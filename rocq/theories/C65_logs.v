(** C65: logging elements are transparent (syslog.go, query-log.go). *)
From Verif Require Import Base Bytes Dns Logs_model Logs_spec Logs_proofs.
Local Open Scope N_scope.

(** Every query with a question is passed on once and unchanged, and its outcome is returned unchanged. Before, the query is logged if this
    is asked for, and afterwards what is due for the outcome: nothing for an error or a dropped query, one entry for an error code or an
    answer without records to show, otherwise one entry for each, numbered from 1. *)
Theorem C65_syslog : forall opt (up : msg -> client -> result) q ci x rest, m_question q = x :: rest -> exists lines,
  syslog_resolve true opt up q ci = Some ((if LogRequest opt then [Write (LQuery (m_id q) (ci_ip ci) (q_type x) (q_name x))] else []) ++ [Call q ci] ++ map Write lines, up q ci) /\
  reported opt q x (up q ci) lines.
Proof. exact syslog_spec. Qed.
Print Assumptions C65_syslog.
Theorem C65_reported : forall opt q x r l1, reported opt q x r l1 -> forall l2, reported opt q x r l2 -> l1 = l2.
Proof. exact reported_fun. Qed.
Print Assumptions C65_reported.
(** If syslog could not be reached at the start, all queries still pass. *)
Theorem C65_down : forall opt up q ci, syslog_resolve false opt up q ci = Some ([Call q ci], up q ci).
Proof. exact syslog_down. Qed.
Print Assumptions C65_down.
(** Listeners do not pass on queries without a question; they would crash here. *)
Theorem C65_question_refuted : exists opt up q ci, syslog_resolve true opt up q ci = None /\ m_question q = [].
Proof. exact syslog_panic. Qed.
Print Assumptions C65_question_refuted.
(** The query log: client, name, class, type, and the addresses of all client-subnet options, nothing else. *)
Theorem C65_querylog : forall (up : msg -> client -> result) q ci x rest, m_question q = x :: rest -> exists ecs,
  querylog_resolve up q ci = Some ([SourceIP (ci_ip ci); QuestionName (q_name x); QuestionClass (q_class x); QuestionType (q_type x)] ++ ecs, (q, ci), up q ci) /\
  forall y, In y ecs <-> exists o a f m s, is_edns0 q = Some o /\ In (ECS f m s a) (opt_options o) /\ y = EcsAddr a.
Proof. exact querylog_spec. Qed.
Print Assumptions C65_querylog.
Theorem C65_querylog_question : forall up q ci, m_question q = [] -> querylog_resolve up q ci = None.
Proof. exact querylog_panic. Qed.
Print Assumptions C65_querylog_question.

Definition demo_q : msg := Msg 9 false 0 false false true false false false 0 [Q "a.example." 1 1] [] [] [new_opt 1232 false [ECS 1 24 0 [192; 0; 2; 0]; PADDING [0]]].
Definition demo_a : msg := set_answer [RR "a.example." 5 1 60 (DCNAME "b.example."); RR "b.example." 1 1 60 (DA [192; 0; 2; 1])] (set_reply empty_msg demo_q).
Definition demo_ci : client := Client [10; 0; 0; 1] "" "" "l".
Example C65_short : syslog_resolve true (SyslogOpts true true false) (fun _ _ => Ans demo_a) demo_q demo_ci =
  Some ([Write (LQuery 9 [10; 0; 0; 1] 1 "a.example."); Call demo_q demo_ci; Write (LAnswer 9 1 1 1 "a.example." (RR "b.example." 1 1 60 (DA [192; 0; 2; 1])))], Ans demo_a).
Proof. vm_compute. reflexivity. Qed.
Example C65_verbose : option_map (fun x => length (fst x)) (syslog_resolve true (SyslogOpts false true true) (fun _ _ => Ans demo_a) demo_q demo_ci) = Some 3%nat.
Proof. vm_compute. reflexivity. Qed.
Example C65_ecs : querylog_resolve (fun _ _ => Drop) demo_q demo_ci = Some ([SourceIP [10; 0; 0; 1]; QuestionName "a.example."; QuestionClass 1; QuestionType 1; EcsAddr [192; 0; 2; 0]], (demo_q, demo_ci), Drop).
Proof. vm_compute. reflexivity. Qed.
