(** What the counters of clients are to show, in terms of the calls and of what pipelines did. *)
From Verif Require Import Base Bytes Dns Modifiers_model Listener_model Client_model Metrics_model Metrics_spec CMetrics_model.
From Verif Require Pipeline_model Pipeline_spec.
Local Open Scope string_scope.
Local Open Scope bool_scope.
Local Open Scope nat_scope.

(** How a call ended *)
Definition gave (f : msg -> bool) (r : result) : bool := match r with Ans a => f a | _ => false end.
Definition failed_with (f : string -> bool) (r : result) : bool := match r with Err e => f e | _ => false end.
Definition is (a : string) (l : list string) : bool := existsb (String.eqb a) l.

(** ** HTTP: the requests that were made, and the outcome *)
Section Http.
Variable decimal : N -> string.
Variable http : hreq -> option hresp.
Variable bad_url : bool.
Definition made (run : list hreq * result) : hreq := match fst run with r :: _ => r | [] => HReq "" "" [] end.
Definition status_of (run : list hreq * result) : N := match http (made run) with Some r => hr_status r | None => 0 end.
Definition large (run : list hreq * result) : bool :=
  match http (made run) with Some r => Nat.ltb (N.to_nat (65535 + 512)) (length (hr_body r)) | None => false end.
(** The key of the error *)
Definition doh_reason (run : list hreq * result) : option string :=
  match snd run with
  | Err e =>
      if String.eqb e "panic" then None
      else if String.eqb e "request" then Some (if bad_url then "http" else "template")
      else if String.eqb e "http" then Some (hq_method (made run))
      else if String.eqb e "status" then Some ("http" ++ decimal (status_of run))
      else if String.eqb e "read" then Some (if large run then "toolarge" else "read")
      else Some e
  | _ => None
  end.
Variable key_failed : bool.
Variable undecodable : bytes -> bool.
Definition body_of (run : list hreq * result) : bytes := match http (made run) with Some r => hr_body r | None => [] end.
Definition odoh_reason (run : list hreq * result) : option string :=
  match snd run with
  | Err e =>
      if is e ["pack"; "encrypt"; "header"] then None
      else if String.eqb e "config" then if key_failed then Some "GET" else None
      else if String.eqb e "decrypt" then Some (if undecodable (body_of run) then "decode" else "decrypt")
      else doh_reason run
  | _ => None
  end.
End Http.
(** doqclient.go: an error of writing may be one of closing *)
Definition doq_reason (close_failed : bool) (r : result) : option string :=
  match r with Err e => Some (if String.eqb e "write" && close_failed then "close" else e) | _ => None end.
Definition because (k : string) (o : option string) : bool := match o with Some x => String.eqb k x | None => false end.
Definition blamed_any (o : option string) : bool := match o with Some _ => true | None => false end.

(** Calls: each has its own behaviour of the world *)
Record dcall := DCall { d_http : hreq -> option hresp; d_bad : bool; d_q : msg }.
Record ocall := OCall { oc_http : hreq -> option hresp; oc_bad : bool; oc_enc : bytes -> option bytes; oc_dec : bytes -> option bytes;
  oc_config : bool; oc_keyfail : bool; oc_undec : bytes -> bool; oc_q : msg }.
Record qcall := QCall { qa_answer : qconn -> bytes -> option bytes; qa_resolved : bool; qa_close : bool; qa_conn : option qconn; qa_dials : list (option qconn); qa_q : msg }.

(** ** Pipelines *)
Section Pipe.
Import Pipeline_model Pipeline_spec.
(** The calls of Resolve there have been *)
Definition begun (l : list pevent) : list nat := flat_map (fun e => match e with ECall k _ => [k] | _ => [] end) l.
(** Request k is done, with a result of this sort. *)
Definition done_with (P : result -> bool) (s : pipe) (k : nat) : bool :=
  match reqs s k with Some r => match r_done r with Some x => P x | None => false end | None => false end.
Definition returned (P : result -> bool) (s : pipe) (k : nat) : bool := match callers s k with CRet r => P r | _ => false end.
Definition is_sent (w : wire) : bool := match w with Sent _ _ _ _ => true | _ => false end.
Definition is_received (w : wire) : bool := match w with Received _ _ => true | _ => false end.
(** The reader has a message it did not count yet. *)
Definition in_hand (s : pipe) : nat := match reader s with RGot _ | RMatch _ _ => 1 | _ => 0 end.
(** Connections are numbered from 1; the latest is open until its reader ends. *)
Definition ended (s : pipe) : nat := match reader s with RNone | RExit => conn s | _ => conn s - 1 end.
Definition end_is (a b : readend) : bool := match a, b with Idle, Idle | ServerTerm, ServerTerm | ServerEOF, ServerEOF | ReadError, ReadError => true | _, _ => false end.
Definition write_failures (l : list pevent) : nat := number (fun e => match e with EWriteFail _ => true | _ => false end) l.
Definition giving_up (s : pipe) : nat := match writer s with WFail _ _ _ | WOwn _ _ => 1 | _ => 0 end.
(** The errors of the network have names of their own. *)
Definition dial_errors (d : string -> bool) (l : list pevent) : Prop :=
  (forall e, In (EDialFail e) l -> d e = true) /\ (forall e, In (EWriteFail e) l -> d e = false) /\ d "full" = false /\ d "closed" = false.
Definition not_from_network (x : string) (l : list pevent) : Prop := ~ In (EDialFail x) l /\ ~ In (EWriteFail x) l.
(** The most requests that were in flight at a time *)
Definition peak (l : list pevent) (n : nat) : Prop :=
  (forall l1 l2 s1, l = (l1 ++ l2)%list -> reached l1 s1 -> length (inflight s1) <= n) /\
  exists l1 l2 s1, l = (l1 ++ l2)%list /\ reached l1 s1 /\ length (inflight s1) = n.
End Pipe.
