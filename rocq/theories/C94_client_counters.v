(** C94: what the counters of upstream clients show. [shows] as in C93; the outcome of a call is that of the models of C40, C58, C79 and C57, what
    a pipeline did is in the states and events of C21. *)
From Coq Require Import Permutation.
From Verif Require Import Base Bytes Dns Modifiers_model Listener_model Client_model Metrics_model Metrics_spec CMetrics_model CMetrics_spec.
From Verif Require Import Pipeline_model Pipeline_spec CMetrics_proofs3 CMetrics_proofs4 CMetrics_proofs5.
Local Open Scope string_scope.
Local Open Scope bool_scope.
Local Open Scope nat_scope.

(** ** DoH: queries are the calls whose message could be packed; a call is counted as a response or as one error, of the kind it failed with. *)
Theorem C94_doh rCode decimal base optlen unpack pack base64 expand has_dns o0 o : newDoHClient has_dns o0 = Some o ->
  let bumps c := CMetrics_model.doh_bumps rCode decimal base optlen unpack pack base64 expand (d_http c) (d_bad c) o (d_q c) in
  let run c := doh_resolve base optlen unpack pack base64 expand (d_http c) o (d_q c) in
  shows bumps ("query", "") (fun c => negb (failed_with (fun e => is e ["panic"; "pack"]) (snd (run c)))) /\
  (forall k, shows bumps ("response", k) (fun c => gave (fun a => String.eqb k (rCode (m_rcode a))) (snd (run c)))) /\
  (forall k, shows bumps ("error", k) (fun c => because k (doh_reason decimal (d_http c) (d_bad c) (run c)))) /\
  (forall calls log, Permutation log (flat_map bumps calls) -> named "response" log + named "error" log = number (fun c => negb (failed_with (String.eqb "panic") (snd (run c)))) calls).
Proof. exact (doh_counts rCode decimal base optlen unpack pack base64 expand has_dns o0 o). Qed.
Print Assumptions C94_doh.

(** ** ODoH: queries are not counted, and neither are failures to pack or encrypt, targets without a usable key, and replies of another type. *)
Theorem C94_odoh rCode decimal unpack pack base64 expand has_dns o0 o with_target : newDoHClient has_dns o0 = Some o ->
  let bumps c := odoh_bumps rCode decimal unpack pack base64 expand (oc_http c) (oc_bad c) (oc_enc c) (oc_dec c) (oc_config c) with_target (oc_keyfail c) (oc_undec c) o (oc_q c) in
  let run c := odoh_resolve unpack pack base64 expand (oc_http c) (oc_enc c) (oc_dec c) (oc_config c) with_target o (oc_q c) in
  shows bumps ("query", "") (fun _ => false) /\
  (forall k, shows bumps ("response", k) (fun c => gave (fun a => String.eqb k (rCode (m_rcode a))) (snd (run c)))) /\
  (forall k, shows bumps ("error", k) (fun c => because k (odoh_reason decimal (oc_http c) (oc_bad c) (oc_keyfail c) (oc_undec c) (run c)))) /\
  (forall calls log, Permutation log (flat_map bumps calls) -> named "response" log + named "error" log =
     number (fun c => negb (failed_with (fun e => is e ["pack"; "encrypt"; "header"] || String.eqb e "config" && negb (oc_keyfail c)) (snd (run c)))) calls).
Proof. intros N. exact (odoh_counts rCode decimal unpack pack base64 expand has_dns o0 o N with_target). Qed.
Print Assumptions C94_odoh.

(** ** DoQ: every call is a query, and a response or an error. *)
Theorem C94_doq rCode unpack pack :
  let bumps c := doq_bumps rCode unpack pack (qa_answer c) (qa_resolved c) (qa_close c) (qa_conn c) (qa_dials c) (qa_q c) in
  let run c := doq_call unpack pack (qa_answer c) (qa_resolved c) (qa_conn c) (qa_dials c) (qa_q c) in
  shows bumps ("query", "") (fun _ => true) /\
  (forall k, shows bumps ("response", k) (fun c => gave (fun a => String.eqb k (rCode (m_rcode a))) (snd (run c)))) /\
  (forall k, shows bumps ("error", k) (fun c => because k (doq_reason (qa_close c) (snd (run c))))) /\
  (forall calls log, Permutation log (flat_map bumps calls) -> named "response" log + named "error" log = length calls).
Proof. exact (doq_counts rCode unpack pack). Qed.
Print Assumptions C94_doq.

(** ** Plain, DoT and DTLS clients: in any state that a pipeline can reach, with any calls of it. [pipe_log]: the additions to its counters
    (of all pipelines of the client, whose variables are the same, these are the sums). *)
(** Queries are the messages sent, responses the messages received that have the ID of a query in flight; per code, the requests that are done with
    a message of that code. There are never more responses than queries, nor fewer than calls that returned an answer. *)
Theorem C94_pipeline rCode why l s : reached l s -> let log := pipe_log rCode why pipe_init l in
  times ("query", "") log = number is_sent (wires s) /\
  named "response" log + times ("error", "unexpected_a") log + in_hand s = number is_received (wires s) /\
  (forall k, times ("response", k) log = number (done_with (gave (fun a => String.eqb k (rCode (m_rcode a)))) s) (begun l)) /\
  named "response" log <= times ("query", "") log /\
  (forall k, number (returned (gave (fun a => String.eqb k (rCode (m_rcode a)))) s) (begun l) <= times ("response", k) log).
Proof.
  intros R. exact (conj (queries rCode why l s R) (conj (receipts rCode why l s R) (conj (fun k => responses rCode why l s k R)
    (conj (response_le rCode why l s R) (fun k => answers_le rCode why k l s R))))).
Qed.
Print Assumptions C94_pipeline.
(** Errors: opening a connection, if d tells such errors from others; a full queue; writing; callers that gave up; connections by how they ended.
    No other keys are in use. *)
Theorem C94_pipeline_errors rCode why l s : reached l s -> let log := pipe_log rCode why pipe_init l in
  (forall d, dial_errors d l -> times ("error", "open") log = number (done_with (failed_with d) s) (begun l)) /\
  (not_from_network "full" l -> times ("error", "inflight_full") log = number (done_with (failed_with (String.eqb "full")) s) (begun l)) /\
  times ("error", "send_query") log + giving_up s = write_failures l /\
  (not_from_network "timeout" l -> times ("error", "querytimeout") log = number (returned (failed_with (String.eqb "timeout")) s) (begun l)) /\
  times ("error", "server_term") log = number (fun n => end_is (why n) ServerTerm) (seq 1 (ended s)) /\
  times ("error", "server_eof") log = number (fun n => end_is (why n) ServerEOF) (seq 1 (ended s)) /\
  times ("error", "read") log = number (fun n => end_is (why n) ReadError) (seq 1 (ended s)) /\
  (forall b, In b log -> b = ("query", "") \/ fst b = "response" \/
     exists k, In k ["querytimeout"; "open"; "inflight_full"; "send_query"; "server_term"; "server_eof"; "read"; "unexpected_a"] /\ b = ("error", k)).
Proof.
  intros R. exact (conj (fun d => opens rCode why d l s R) (conj (fulls rCode why l s R) (conj (sends rCode why l s R) (conj (timeouts rCode why l s R)
    (conj (ends rCode why ServerTerm l s R ltac:(discriminate)) (conj (ends rCode why ServerEOF l s R ltac:(discriminate)) (conj (ends rCode why ReadError l s R ltac:(discriminate))
    (labels rCode why l pipe_init)))))))).
Qed.
Print Assumptions C94_pipeline_errors.
(** A query whose call failed because it could not be written is among the failures of writing. *)
Theorem C94_pipeline_write rCode why w l s : reached l s -> (forall x, w x = true -> ~ In (EDialFail x) l) -> w "full" = false -> w "closed" = false ->
  number (done_with (failed_with w) s) (begun l) <= times ("error", "send_query") (pipe_log rCode why pipe_init l).
Proof. exact (write_failed rCode why w l s). Qed.
Print Assumptions C94_pipeline_write.
(** maxqueue is the most queries in flight at a time as of the latest response, 0 before. *)
Theorem C94_pipeline_queue l1 l2 s : ~ In EComplete l2 ->
  (reached (l1 ++ EComplete :: l2) s -> peak l1 (snd (pipe_queue pipe_init (l1 ++ EComplete :: l2) (0, 0)))) /\
  (reached l2 s -> snd (pipe_queue pipe_init l2 (0, 0)) = 0).
Proof. intros N. exact (conj (fun R => top_complete (fun _ => "") (fun _ => CMetrics_model.Idle) l1 l2 s R N) (fun R => top_quiet l2 [] s R N)). Qed.
Print Assumptions C94_pipeline_queue.

(** ** Examples *)
Definition C94_code (c : N) : string := if N.eqb c 0 then "NOERROR" else "OTHER".
Definition C94_q (n : string) : msg := set_question [Q n 1 1] (set_id 7 empty_msg).
Definition C94_a (n : string) (id : N) : msg := set_answer [RR n 1 1 60 (DA [1;2;3;4]%N)] (set_question [Q n 1 1] (set_id id empty_msg)).
Definition C94_start : list pevent := [ECall 1 (C94_q "a."); ECall 2 (C94_q "b."); ETakeMain 1; EDial; ETakeWriter 2; EAdd 20; EWritten; ETakeWriter 1; EAdd 10; EWritten].
Definition C94_log (l : list pevent) := (pipe_log C94_code (fun n => if Nat.eqb n 1 then ServerEOF else ReadError) pipe_init l, snd (pipe_queue pipe_init l (0, 0))).
(** Two queries, a reply, one that nothing waits for, and the end of the connection with the other query in flight *)
Example C94_two : C94_log (C94_start ++ [ERead (C94_a "a." 10); EGet; EComplete; EDone 1; ERead (C94_a "b." 30); EGet; EReadFail; EStop; EWait; EDrain; EDone 2])
  = ([("query", ""); ("query", ""); ("response", "NOERROR"); ("error", "unexpected_a"); ("error", "server_eof")], 2).
Proof. vm_compute. reflexivity. Qed.
(** The second connection cannot be opened, a third query times out. *)
Example C94_fail : C94_log (C94_start ++ [EReadFail; EStop; EWait; EDrain; EDone 1; ECall 3 (C94_q "c."); ETakeMain 3; EDialFail "refused"; EDone 3; ECall 4 (C94_q "d."); ETakeMain 4; ETimeout 4; EDelete 4])
  = ([("query", ""); ("query", ""); ("error", "server_eof"); ("error", "open"); ("error", "querytimeout")], 0).
Proof. vm_compute. reflexivity. Qed.
Example C94_dial : dial_errors (String.eqb "refused") [ECall 3 (C94_q "c."); ETakeMain 3; EDialFail "refused"] /\ not_from_network "timeout" [ECall 3 (C94_q "c."); ETakeMain 3; EDialFail "refused"].
Proof.
  repeat split; try reflexivity; try (intros e I); try (intros I).
  - destruct I as [I|[I|[I|[]]]]; try discriminate I. injection I as <-. reflexivity.
  - destruct I as [I|[I|[I|[]]]]; discriminate I.
  - destruct I as [I|[I|[I|[]]]]; discriminate I.
  - destruct I as [I|[I|[I|[]]]]; discriminate I.
Qed.

(** Responses are not the answers returned: a reply to another question, which the caller refuses, is counted as a response (and nowhere as an
    error) here, whereas DoH and DoQ clients count the error "question". *)
Theorem C94_answers_refuted :
  ~ (forall rCode why l s k, reached l s -> (forall j, In j (begun l) -> exists r, callers s j = CRet r) ->
     times ("response", k) (pipe_log rCode why pipe_init l) = number (returned (gave (fun a => String.eqb k (rCode (m_rcode a)))) s) (begun l)).
Proof.
  intros H. set (l := [ECall 1 (C94_q "a."); ETakeMain 1; EDial; ETakeWriter 1; EAdd 10; EWritten; ERead (C94_a "b." 10); EGet; EComplete; EDone 1]).
  destruct (pipe_exec pipe_init l) as [s|] eqn:E; [|vm_compute in E; discriminate E].
  assert (C : option_map (fun s => callers s 1) (pipe_exec pipe_init l) = Some (CRet (Err "question"))) by (vm_compute; reflexivity).
  rewrite E in C. cbn [option_map] in C. injection C as C.
  specialize (H C94_code (fun _ => ReadError) l s "NOERROR" E). change (begun l) with [1] in H.
  assert (L : times ("response", "NOERROR") (pipe_log C94_code (fun _ => ReadError) pipe_init l) = 1) by (vm_compute; reflexivity).
  rewrite L in H. unfold number, returned in H. cbn [filter] in H. rewrite C in H. cbn [gave length] in H. discriminate H.
  intros j [<-|[]]. eauto.
Qed.
Print Assumptions C94_answers_refuted.

(** An answer over ODoH: no query is counted. *)
Definition C94_http (r : hreq) : option hresp := Some (HResp 200 "application/oblivious-dns-message" [1]%N false).
Definition C94_ocall (config : bool) : ocall := OCall C94_http false (fun b => Some b) (fun b => Some b) config true (fun _ => false) (C94_q "a.").
Definition C94_obumps (c : ocall) := odoh_bumps C94_code (fun _ => "") (fun _ => Some (C94_a "a." 7)) (fun _ => Some [1]%N) (fun _ => "") (fun _ => Some "u")
  (oc_http c) (oc_bad c) (oc_enc c) (oc_dec c) (oc_config c) (fun u => u) (oc_keyfail c) (oc_undec c) (DohCOpt "POST" "tcp" false) (oc_q c).
Example C94_oblivious : flat_map C94_obumps [C94_ocall true; C94_ocall false] = [("response", "NOERROR"); ("error", "GET")].
Proof. vm_compute. reflexivity. Qed.
Theorem C94_odoh_query_refuted : ~ (forall calls, times ("query", "") (flat_map C94_obumps calls) = length calls).
Proof. intros H. specialize (H [C94_ocall true]). vm_compute in H. discriminate H. Qed.
Print Assumptions C94_odoh_query_refuted.

(** Over DoH, an answer, an error status, and a reply to another question *)
Definition C94_dbumps (st : N) (n : string) := CMetrics_model.doh_bumps C94_code (fun _ => "500") (fun _ => 40%N) (fun _ => 4%N) (fun _ => Some (C94_a n 7)) (fun _ => Some [1;2]%N) (fun _ => "")
  (fun _ => Some "u") (fun _ => Some (HResp st "" [1]%N false)) false (DohCOpt "POST" "tcp" false) (C94_q "a.").
Example C94_web : (C94_dbumps 200 "a." ++ C94_dbumps 500 "a." ++ C94_dbumps 200 "b.")%list =
  [("query", ""); ("response", "NOERROR"); ("query", ""); ("error", "http500"); ("query", ""); ("error", "question")].
Proof. vm_compute. reflexivity. Qed.
Definition C94_qbumps (answer : option bytes) := doq_bumps C94_code (fun _ => Some (C94_a "a." 0)) (fun _ => Some [1;2]%N) (fun _ _ => answer) true false None [Some (QConn 1 HsLater true)] (C94_q "a.").
Example C94_quic : (C94_qbumps (Some [0;1;5]%N) ++ C94_qbumps None ++ C94_qbumps (Some [0;9;5]%N))%list = [("query", ""); ("response", "NOERROR"); ("query", ""); ("error", "write"); ("query", ""); ("error", "read")].
Proof. vm_compute. reflexivity. Qed.
