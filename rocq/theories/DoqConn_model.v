(** The connection of a DoQ client (doqclient.go:270-400 quicConnection), shared by any number of queries that run side by side.
    quic-go: OpenStream does not wait; it fails if the connection is closed or the peer does not allow another stream yet.
    CloseWithError ends all streams of the connection. Messages are the subject of C50 and C58. *)
From Verif Require Import Base.
Local Open Scope nat_scope.

(** A connection: not closed; handshake complete; streams that the peer still allows *)
Record conn := Conn { alive : bool; complete : bool; room : nat }.
Inductive outcome := Answered | DialFailed | StreamFailed (* OpenStream of a new connection failed *) | Cut (* the connection was closed *) | TimedOut.
(** Where a query is: doqclient.go:322 waiting for the mutex; 326-336 dialling; 337, 347 awaitReplaySafe; 340, 348 OpenStream; 191-229 the stream of connection c *)
Inductive pc := Waiting | Dialing (again : bool) | Awaiting (again : bool) | Opening (again : bool) | Streaming (c : nat) | Done (o : outcome).
Record query := Query { safe : bool; at_ : pc }.
Record st := St { conns : list conn; cur : option nat (* s.Conn *); lock : option nat; queries : list query; closed_by_us : list nat }.
Definition init : st := St [] None None [] [].
Fixpoint put {A} (i : nat) (x : A) (l : list A) : list A :=
  match i, l with O, _ :: l' => x :: l' | S i', y :: l' => y :: put i' x l' | _, [] => [] end.
Definition goto (i : nat) (b : bool) (p : pc) (s : st) : st := St (conns s) (cur s) (lock s) (put i (Query b p) (queries s)) (closed_by_us s).
Definition unlock (s : st) : st := St (conns s) (cur s) None (queries s) (closed_by_us s).
Definition set_conn (c : nat) (x : conn) (s : st) : st := St (put c x (conns s)) (cur s) (lock s) (queries s) (closed_by_us s).
Definition add_conn (x : conn) (s : st) : st := St (conns s ++ [x]) (Some (length (conns s))) (lock s) (queries s) (closed_by_us s).
Definition close_conn (c : nat) (s : st) : st :=
  match nth_error (conns s) c with
  | Some x => St (put c (Conn false (complete x) (room x)) (conns s)) (cur s) (lock s) (queries s) (if alive x then c :: closed_by_us s else closed_by_us s)
  | None => s
  end.
(** New: a query comes in, one that may be replayed or not; Go: the next step of a query. [dial]: the connection that dialling gives, if
    it does. The others are outside: a query runs out of time, an answer comes, a connection ends, its handshake completes, the peer
    allows n more streams *)
Inductive label := New (b : bool) | Go (i : nat) (dial : option conn) | Expire (i : nat) | Answer (i : nat) | End (c : nat) | Handshake (c : nat) | Allow (c n : nat).
Definition go (i : nat) (dial : option conn) (b : bool) (p : pc) (s : st) : option st :=
  match p with
  (* 322-326: the first one dials *)
  | Waiting => match lock s with
               | None => Some (goto i b (match cur s with None => Dialing false | Some _ => Awaiting false end) (St (conns s) (cur s) (Some i) (queries s) (closed_by_us s)))
               | Some _ => None
               end
  (* 328-335, 385-398; a connection that was dialled is open *)
  | Dialing again => match dial with
                     | None => Some (unlock (goto i b (Done DialFailed) s))
                     | Some x => Some (goto i b (Awaiting again) (add_conn (Conn true (complete x) (room x)) s))
                     end
  (* 366-374 *)
  | Awaiting again => match cur s with
                      | None => None
                      | Some c => match nth_error (conns s) c with
                                  | None => None
                                  | Some x => if b || complete x || negb (alive x) then Some (goto i b (Opening again) s) else None
                                  end
                      end
  (* 340-356, 378-379: the connection is closed before another is dialled *)
  | Opening again => match cur s with
                     | None => None
                     | Some c => match nth_error (conns s) c with
                                 | None => None
                                 | Some x => match alive x, room x with
                                             | true, S n => Some (unlock (goto i b (Streaming c) (set_conn c (Conn true (complete x) n) s)))
                                             | _, _ => if again then Some (unlock (goto i b (Done StreamFailed) s)) else Some (goto i b (Dialing true) (close_conn c s))
                                             end
                                 end
                     end
  (* 191-229: reading or writing fails *)
  | Streaming c => match nth_error (conns s) c with Some x => if alive x then None else Some (goto i b (Done Cut) s) | None => None end
  | Done _ => None
  end.
Definition step (a : label) (s : st) : option st :=
  match a with
  | New b => Some (St (conns s) (cur s) (lock s) (queries s ++ [Query b Waiting]) (closed_by_us s))
  | Go i dial => match nth_error (queries s) i with Some q => go i dial (safe q) (at_ q) s | None => None end
  | Expire i => match nth_error (queries s) i with Some (Query b (Streaming c)) => Some (goto i b (Done TimedOut) s) | _ => None end
  | Answer i => match nth_error (queries s) i with
                | Some (Query b (Streaming c)) => match nth_error (conns s) c with Some x => if alive x then Some (goto i b (Done Answered) s) else None | None => None end
                | _ => None
                end
  | End c => match nth_error (conns s) c with Some x => Some (set_conn c (Conn false (complete x) (room x)) s) | None => None end
  | Handshake c => match nth_error (conns s) c with Some x => if alive x then Some (set_conn c (Conn true true (room x)) s) else None | None => None end
  | Allow c n => match nth_error (conns s) c with Some x => Some (set_conn c (Conn (alive x) (complete x) (room x + n)) s) | None => None end
  end.
Fixpoint run (ls : list label) (s : st) : option st :=
  match ls with [] => Some s | a :: ls' => match step a s with Some s' => run ls' s' | None => None end end.
