(** The elements that log queries and answers: syslog.go, query-log.go. A log entry is the fields that are put into it; their text form
    (fmt.Sprintf, net.IP.String, dns.TypeToString, dns.RR.String, log/slog) is not modelled. *)
From Verif Require Import Base Bytes Dns.
Local Open Scope N_scope.

(** What is written to syslog *)
Inductive entry :=
| LQuery (qid : N) (client : bytes) (qtype : N) (qname : string)
| LAnswer (qid : N) (num total : nat) (qtype : N) (qname : string) (r : rr)
| LNodata (qid : N) (qtype : N) (qname : string)
| LRcode (qid : N) (qtype : N) (qname : string) (rcode : N).
Inductive levent := Write (e : entry) | Call (q : msg) (ci : client).

(** syslog.go:19-40 SyslogOptions *)
Record syslogopts := SyslogOpts { LogRequest : bool; LogResponse : bool; Verbose : bool }.
(** message.go:48-53 qType; the number stands for its name, 0 for no question *)
Definition qType (q : msg) : N := match m_question q with [] => 0 | x :: _ => q_type x end.
(** syslog.go:85-92 *)
Fixpoint matching (t : N) (l : list rr) : list rr :=
  match l with [] => [] | r :: l' => if N.eqb (rr_type r) t then r :: matching t l' else matching t l' end.
(** syslog.go:80-92: the records that are shown; [None] is a panic *)
Definition shown_records (opt : syslogopts) (q a : msg) : option (list rr) :=
  if Verbose opt then Some (m_answer a)
  else match m_answer a, m_question q with
       | [], _ => Some []
       | _, [] => None
       | l, x :: _ => Some (matching (q_type x) l)
       end.
(** syslog.go:95-102 *)
Fixpoint answer_lines (q : msg) (n i : nat) (l : list rr) : list levent :=
  match l with [] => [] | r :: l' => Write (LAnswer (m_id q) (S i) n (qType q) (qName q) r) :: answer_lines q n (S i) l' end.
(** syslog.go:58-114 Resolve. A failure to write is only logged, so what the writer returns is irrelevant. [None] is a panic. *)
Definition syslog_resolve (writer : bool) (opt : syslogopts) (up : msg -> client -> result) (q : msg) (ci : client) : option (list levent * result) :=
  if negb writer then Some ([Call q ci], up q ci)
  else
    let request := if LogRequest opt then [Write (LQuery (m_id q) (ci_ip ci) (qType q) (qName q))] else [] in
    let r := up q ci in
    let response :=
      match r with
      | Ans a =>
          if LogResponse opt then
            if N.eqb (m_rcode a) RcodeSuccess then
              match shown_records opt q a with
              | None => None
              | Some l => Some (answer_lines q (length l) 0 l ++ match l with [] => [Write (LNodata (m_id q) (qType q) (qName q))] | _ => [] end)
              end
            else Some [Write (LRcode (m_id q) (qType q) (qName q) (m_rcode a))]
          else Some []
      | _ => Some []
      end in
    match response with
    | None => None
    | Some l => Some (request ++ [Call q ci] ++ l, r)
    end.

(** The attributes of a query log entry *)
Inductive attr := SourceIP (ip : bytes) | QuestionName (n : string) | QuestionClass (c : N) | QuestionType (t : N) | EcsAddr (ip : bytes).
(** query-log.go:75-84: the loop over the options *)
Fixpoint ecs_attrs (l : list edns0) : list attr :=
  match l with [] => [] | ECS _ _ _ a :: l' => EcsAddr a :: ecs_attrs l' | _ :: l' => ecs_attrs l' end.
(** query-log.go:64-88 Resolve: the attributes logged, the query passed on, and the outcome; [None] is a panic *)
Definition querylog_resolve (up : msg -> client -> result) (q : msg) (ci : client) : option (list attr * (msg * client) * result) :=
  match m_question q with
  | [] => None
  | x :: _ =>
      let attrs := [SourceIP (ci_ip ci); QuestionName (q_name x); QuestionClass (q_class x); QuestionType (q_type x)] in
      let attrs := match is_edns0 q with Some o => attrs ++ ecs_attrs (opt_options o) | None => attrs end in
      Some (attrs, (q, ci), up q ci)
  end.
