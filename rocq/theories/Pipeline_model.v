(** Model of the pipelined upstream connections of the plain, DoT and DTLS clients: pipeline.go.
    Callers, the main loop, the goroutines that re-queue a request, the writer and the reader are
    threads; their atomic sections (channel operations, sections under the mutex, calls of the
    connection) are the steps. Calls of Resolve, and with them requests, are numbered. The
    connection, dialling, timers and the random IDs are part of the events. Metrics and logging are
    left out. *)
From Verif Require Import Base Bytes Dns Groups_model.
Open Scope nat_scope.

Definition upd {A} (f : nat -> A) (k : nat) (v : A) : nat -> A := fun x => if Nat.eqb x k then v else f x.

(** pipeline.go:200-205 request: the query, the ID in flight, the result once done is closed *)
Record request := Request { r_q : msg; r_id : N; r_done : option result }.

(** A call of Resolve (pipeline.go:54-80): not started, at the first select, at the second one, the
    timer fired there, returned *)
Inductive caller := CNone | COffer | CWait | CExpired | CRet (r : result).
(** The main loop (pipeline.go:85-190): at range, dialling for a request, at wg.Wait, about to drain *)
Inductive mainpc := MIdle | MGot (k : nat) | MRunning | MDrain.
(** The writer (101-136): not started, at select, got a request, in WriteMsg, writing failed, owning
    the failed request, ended *)
Inductive writerpc := WNone | WIdle | WGot (k : nat) | WSend (k : nat) (id : N) | WFail (k : nat) (id : N) (e : string) | WOwn (k : nat) (e : string) | WExit.
(** The reader (137-185): not started, in ReadMsg, got a message, matched it, ended *)
Inductive readerpc := RNone | RRead | RGot (a : msg) | RMatch (k : nat) (a : msg) | RExit.

(** What happened on connections, oldest first: the query m of a request was sent with an ID, a
    message was received *)
Inductive wire := Sent (conn k : nat) (id : N) (m : msg) | Received (conn : nat) (a : msg).

Record pipe := Pipe {
  reqs : nat -> option request; callers : nat -> caller; main : mainpc; requeue : list nat;
  writer : writerpc; reader : readerpc; stop : bool;    (* the channel done is closed *)
  inflight : list (N * nat); conn : nat; wires : list wire;
  crash : bool                                          (* a done channel was closed twice *)
}.
Definition pipe_init : pipe := Pipe (fun _ => None) (fun _ => CNone) MIdle [] WNone RNone false [] 0 [] false.

Definition set_reqs v s := Pipe v (callers s) (main s) (requeue s) (writer s) (reader s) (stop s) (inflight s) (conn s) (wires s) (crash s).
Definition set_callers v s := Pipe (reqs s) v (main s) (requeue s) (writer s) (reader s) (stop s) (inflight s) (conn s) (wires s) (crash s).
Definition set_main v s := Pipe (reqs s) (callers s) v (requeue s) (writer s) (reader s) (stop s) (inflight s) (conn s) (wires s) (crash s).
Definition set_requeue v s := Pipe (reqs s) (callers s) (main s) v (writer s) (reader s) (stop s) (inflight s) (conn s) (wires s) (crash s).
Definition set_writer v s := Pipe (reqs s) (callers s) (main s) (requeue s) v (reader s) (stop s) (inflight s) (conn s) (wires s) (crash s).
Definition set_reader v s := Pipe (reqs s) (callers s) (main s) (requeue s) (writer s) v (stop s) (inflight s) (conn s) (wires s) (crash s).
Definition set_stop v s := Pipe (reqs s) (callers s) (main s) (requeue s) (writer s) (reader s) v (inflight s) (conn s) (wires s) (crash s).
Definition set_inflight v s := Pipe (reqs s) (callers s) (main s) (requeue s) (writer s) (reader s) (stop s) v (conn s) (wires s) (crash s).
Definition set_conn v s := Pipe (reqs s) (callers s) (main s) (requeue s) (writer s) (reader s) (stop s) (inflight s) v (wires s) (crash s).
Definition set_wires v s := Pipe (reqs s) (callers s) (main s) (requeue s) (writer s) (reader s) (stop s) (inflight s) (conn s) v (crash s).
Definition set_crash v s := Pipe (reqs s) (callers s) (main s) (requeue s) (writer s) (reader s) (stop s) (inflight s) (conn s) (wires s) v.

(** pipeline.go:228-235 markDone *)
Definition markDone (k : nat) (res : result) (s : pipe) : pipe :=
  match reqs s k with
  | None => s
  | Some r =>
      match r_done r with
      | Some _ => set_crash true s
      | None =>
          let res := match res with Ans a => Ans (set_id (m_id (r_q r)) a) | x => x end in
          set_reqs (upd (reqs s) k (Some (Request (r_q r) (r_id r) (Some res)))) s
      end
  end.
(** pipeline.go:215-225 waitFor *)
Definition waitFor (r : request) (res : result) : result :=
  match res with
  | Ans a => if validateResponseQuestion (r_q r) a then Ans a else Err "question"
  | x => x
  end.

(** q.requests[id] *)
Definition lookup (id : N) (l : list (N * nat)) : option nat := option_map snd (find (fun p => N.eqb (fst p) id) l).
Definition remove_id (id : N) (l : list (N * nat)) : list (N * nat) := filter (fun p => negb (N.eqb (fst p) id)) l.

(** Receiving request k from the channel: from its caller or from a goroutine re-queueing it *)
Definition receive (k : nat) (s : pipe) : option pipe :=
  match callers s k with
  | COffer => Some (set_callers (upd (callers s) k CWait) s)
  | _ => if existsb (Nat.eqb k) (requeue s) then Some (set_requeue (remove_one k (requeue s)) s) else None
  end.

Inductive pevent :=
| ECall (k : nat) (q : msg)          (* Resolve is called *)
| EOfferTimeout (k : nat)            (* the timer fires in the first select *)
| ETakeMain (k : nat)                (* the main loop receives a request *)
| EDial                              (* dialling succeeds *)
| EDialFail (e : string)
| ETakeWriter (k : nat)              (* the writer receives a request *)
| EAdd (id : N)                      (* inFlight.add with this random ID *)
| EWritten                           (* WriteMsg succeeds *)
| EWriteFail (e : string)
| EGetBack                           (* the writer calls inFlight.get *)
| EFail                              (* it fails the request, closes the connection and ends *)
| EStop                              (* it sees done *)
| ERead (a : msg)                    (* ReadMsg returns a message *)
| EReadFail                          (* or an error that ends the connection *)
| EGet                               (* the reader calls inFlight.get *)
| EComplete                          (* it completes the request *)
| EWait                              (* wg.Wait returns *)
| EDrain                             (* inFlight.drain *)
| EDone (k : nat)                    (* the caller sees done and returns *)
| ETimeout (k : nat)                 (* the timer fires in the second select *)
| EDelete (k : nat).                 (* inFlight.delete, the caller returns *)

Definition pipe_step (s : pipe) (e : pevent) : option pipe :=
  match e with
  | ECall k q =>
      match callers s k with
      | CNone => Some (set_callers (upd (callers s) k COffer) (set_reqs (upd (reqs s) k (Some (Request q 0 None))) s))
      | _ => None
      end
  | EOfferTimeout k =>
      match callers s k with COffer => Some (set_callers (upd (callers s) k (CRet (Err "timeout"))) s) | _ => None end
  | ETakeMain k =>
      match main s, receive k s with MIdle, Some s' => Some (set_main (MGot k) s') | _, _ => None end
  | EDial =>
      match main s with
      | MGot k => Some (set_main MRunning (set_requeue (k :: requeue s) (set_writer WIdle (set_reader RRead (set_stop false (set_conn (S (conn s)) s))))))
      | _ => None
      end
  | EDialFail e =>
      match main s with MGot k => Some (set_main MIdle (markDone k (Err e) s)) | _ => None end
  | ETakeWriter k =>
      match writer s, receive k s with WIdle, Some s' => Some (set_writer (WGot k) s') | _, _ => None end
  | EAdd id =>
      match writer s with
      | WGot k =>
          if Nat.leb (N.to_nat 65535) (length (inflight s)) then Some (set_writer WIdle (markDone k (Err "full") s))
          else match lookup id (inflight s), reqs s k with
               | None, Some r =>
                   if N.ltb id 65536 then
                     Some (set_writer (WSend k id)
                            (set_reqs (upd (reqs s) k (Some (Request (r_q r) id (r_done r))))
                              (set_inflight ((id, k) :: inflight s)
                                (set_wires (wires s ++ [Sent (conn s) k id (set_id id (r_q r))]) s))))
                   else None
               | _, _ => None
               end
      | _ => None
      end
  | EWritten => match writer s with WSend k id => Some (set_writer WIdle s) | _ => None end
  | EWriteFail e => match writer s with WSend k id => Some (set_writer (WFail k id e) s) | _ => None end
  | EGetBack =>
      match writer s with
      | WFail k id e =>
          match lookup id (inflight s) with
          | Some _ => Some (set_writer (WOwn k e) (set_inflight (remove_id id (inflight s)) s))
          | None => Some (set_writer WExit s)
          end
      | _ => None
      end
  | EFail => match writer s with WOwn k e => Some (set_writer WExit (markDone k (Err e) s)) | _ => None end
  | EStop => match writer s, stop s with WIdle, true => Some (set_writer WExit s) | _, _ => None end
  | ERead a =>
      match reader s with RRead => Some (set_reader (RGot a) (set_wires (wires s ++ [Received (conn s) a]) s)) | _ => None end
  | EReadFail => match reader s with RRead => Some (set_reader RExit (set_stop true s)) | _ => None end
  | EGet =>
      match reader s with
      | RGot a =>
          match lookup (m_id a) (inflight s) with
          | Some k => Some (set_reader (RMatch k a) (set_inflight (remove_id (m_id a) (inflight s)) s))
          | None => Some (set_reader RRead s)
          end
      | _ => None
      end
  | EComplete => match reader s with RMatch k a => Some (set_reader RRead (markDone k (Ans a) s)) | _ => None end
  | EWait => match main s, writer s, reader s with MRunning, WExit, RExit => Some (set_main MDrain s) | _, _, _ => None end
  | EDrain =>
      match main s with
      | MDrain =>
          Some (set_main MIdle (set_writer WNone (set_reader RNone (set_inflight []
            (fold_left (fun s k => markDone k (Err "closed") s) (map snd (inflight s)) s)))))
      | _ => None
      end
  | EDone k =>
      match callers s k, reqs s k with
      | CWait, Some r => match r_done r with Some res => Some (set_callers (upd (callers s) k (CRet (waitFor r res))) s) | None => None end
      | _, _ => None
      end
  | ETimeout k => match callers s k with CWait => Some (set_callers (upd (callers s) k CExpired) s) | _ => None end
  | EDelete k =>
      match callers s k, reqs s k with
      | CExpired, Some r =>
          let s := match lookup (r_id r) (inflight s) with
                   | Some k' => if Nat.eqb k' k then set_inflight (remove_id (r_id r) (inflight s)) s else s
                   | None => s
                   end in
          Some (set_callers (upd (callers s) k (CRet (Err "timeout"))) s)
      | _, _ => None
      end
  end.

Fixpoint pipe_exec (s : pipe) (l : list pevent) : option pipe :=
  match l with
  | [] => Some s
  | e :: l => match pipe_step s e with None => None | Some s => pipe_exec s l end
  end.
