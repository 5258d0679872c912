(** Starting and stopping of listeners: dnslistener.go, dotlistener.go, dtlslistener.go, dohlistener.go, adminlistener.go,
    doqlistener.go, xsocketserver_linux.go. One listener, one call of Start, any number of calls of Stop, and queries, side by side.
    The servers of the libraries (miekg/dns, net/http, quic-go) are modelled by what they document: see [start_step] and [stop_step].
    Simplified: a query is a count; requests to the xsocket server count as queries. *)
From Verif Require Import Base.
Local Open Scope nat_scope.

Inductive kind :=
  | Dns (udp act : bool) (* dns.Server: plain DNS, DoT and DTLS (as TCP); [act]: Start binds and then calls ActivateAndServe *)
  | Http                 (* DoH, ODoH and admin over TCP *)
  | Quic                 (* DoH and admin over QUIC *)
  | Doq
  | Xs.                  (* the xsocket server *)
(** Where Start is. *)
Inductive spc := Fresh | Made | Bound | Serving | Draining (ok : bool) | Returned (ok : bool).
(** What Stop did. *)
Inductive outcome := Took | Ignored (* nil, nothing done *) | NotStarted (* an error, nothing done *).
(** Where a call of Stop is. *)
Inductive tpc := Begin | Close1 | Close2 | Close3 | Wait | Done (o : outcome).
Record st := St {
  pc : spc;
  sock : bool;      (* the listening socket is open *)
  pub : bool;       (* Stop can see the server: httpServer, quicServer (and its transport and socket), ln are set; dns.Server was started *)
  down : bool;      (* the server was told to shut down *)
  dead : bool;      (* the QUIC transport is closed *)
  shut : bool;      (* dns.Server's channel shutdown is closed *)
  broken : bool;    (* Accept of the QUIC listener fails for another reason; the reason stays *)
  inflight : nat; lost : nat; stops : list tpc }.
Definition init : st := St Fresh false false false false false false 0 0 [].

Definition at_pc (p : spc) (s : st) : st := St p (sock s) (pub s) (down s) (dead s) (shut s) (broken s) (inflight s) (lost s) (stops s).
Definition with_sock (b : bool) (s : st) : st := St (pc s) b (pub s) (down s) (dead s) (shut s) (broken s) (inflight s) (lost s) (stops s).
Definition publish (s : st) : st := St (pc s) (sock s) true (down s) (dead s) (shut s) (broken s) (inflight s) (lost s) (stops s).
Definition shutting (s : st) : st := St (pc s) (sock s) (pub s) true (dead s) (shut s) (broken s) (inflight s) (lost s) (stops s).
Definition kill (s : st) : st := St (pc s) (sock s) (pub s) (down s) (dead s) (shut s) (broken s) 0 (lost s + inflight s) (stops s).
Definition closed_transport (s : st) : st := St (pc s) (sock s) (pub s) (down s) true (shut s) (broken s) (inflight s) (lost s) (stops s).
Definition shut_down (s : st) : st := St (pc s) (sock s) (pub s) (down s) (dead s) true (broken s) (inflight s) (lost s) (stops s).
Definition break (s : st) : st := St (pc s) (sock s) (pub s) (down s) (dead s) (shut s) true (inflight s) (lost s) (stops s).
Definition count (n : nat) (s : st) : st := St (pc s) (sock s) (pub s) (down s) (dead s) (shut s) (broken s) n (lost s) (stops s).
Definition with_stops (l : list tpc) (s : st) : st := St (pc s) (sock s) (pub s) (down s) (dead s) (shut s) (broken s) (inflight s) (lost s) l.

(** The next step of Start. [ok]: binding and the like succeed; while serving, false is a failure of Accept that has nothing to do
    with Stop. None: it waits. *)
Definition start_step (k : kind) (ok : bool) (s : st) : option st :=
  match k, pc s with
  (* dnslistener.go:47-53, dotlistener.go:62: ListenAndServe binds and marks the server as started under its lock *)
  | Dns _ false, Fresh => Some (if ok then at_pc Serving (publish (with_sock true s)) else at_pc (Returned false) s)
  (* dnslistener.go:55-71, dotlistener.go:54-59, dtlslistener.go:48-74 *)
  | Dns _ true, Fresh => Some (if ok then at_pc Bound (with_sock true s) else at_pc (Returned false) s)
  (* dnslistener.go:72, dotlistener.go:60, dtlslistener.go:75: ActivateAndServe. It fails for UDP if the socket refuses an option,
     and leaves the socket open then. *)
  | Dns udp _, Bound => if ok then Some (at_pc Serving (publish s)) else if udp then Some (at_pc (Returned false) s) else None
  (* serveTCP and serveUDP of dns.Server: they end when the server is no longer started, or Accept fails *)
  | Dns _ _, Serving => if ok then if down s then Some (at_pc (Draining true) s) else None
                        else if down s then None else Some (at_pc (Draining false) s)
  (* their deferred functions: wait for the queries, close the channel, close the socket *)
  | Dns _ _, Draining b => if inflight s =? 0 then Some (at_pc (Returned b) (with_sock false (shut_down s))) else None
  (* dohlistener.go:130-139, adminlistener.go:85-94 *)
  | Http, Fresh => Some (at_pc Made (publish s))
  (* dohlistener.go:141-144, adminlistener.go:96-99 *)
  | Http, Made => Some (if ok then at_pc Bound (with_sock true s) else at_pc (Returned false) s)
  (* dohlistener.go:145-149, adminlistener.go:100-101: Serve returns ErrServerClosed when shutting down; ServeTLS may not like the
     certificates; ln.Close is deferred *)
  | Http, Bound => Some (if ok then if down s then at_pc (Returned true) (with_sock false s) else at_pc Serving s
                         else at_pc (Returned false) (with_sock false s))
  | Http, Serving => if ok then if down s then Some (at_pc (Returned true) (with_sock false s)) else None
                     else if down s then None else Some (at_pc (Returned false) (with_sock false s))
  (* dohlistener.go:153-161, adminlistener.go:105-113, doqlistener.go:83-91 *)
  | Quic, Fresh | Doq, Fresh => Some (if ok then at_pc Bound (with_sock true s) else at_pc (Returned false) s)
  (* dohlistener.go:162-182, adminlistener.go:114-130, doqlistener.go:92-107 *)
  | Quic, Bound | Doq, Bound => Some (if ok then at_pc Serving (publish s) else at_pc (Returned false) (with_sock false s))
  (* dohlistener.go:183, adminlistener.go:131: nothing is closed when ServeListener returns *)
  | Quic, Serving => if ok then if down s then Some (at_pc (Returned true) s) else None
                     else if down s then None else Some (at_pc (Returned false) s)
  (* doqlistener.go:110-123: only ErrServerClosed ends the loop; the first reason for closing is the one Accept returns *)
  | Doq, Serving => if ok then if down s && negb (broken s) then Some (at_pc (Returned true) s) else None
                    else if down s then None else Some (break s)
  (* xsocketserver_linux.go:57-60; the socket file is the subject of C80 *)
  | Xs, Fresh => Some (if ok then at_pc Bound (with_sock true s) else at_pc (Returned false) s)
  (* xsocketserver_linux.go:61-67 *)
  | Xs, Bound => Some (if down s then at_pc (Returned true) (with_sock false s) else at_pc Serving (publish s))
  (* xsocketserver_linux.go:69-77 *)
  | Xs, Serving => if ok then if down s then Some (at_pc (Returned true) s) else None
                   else if down s then None else Some (at_pc (Returned false) s)
  | _, _ => None
  end.

Definition serving (s : st) : bool := match pc s with Serving => true | _ => false end.
(** One step of a call of Stop that is at [t]. *)
Definition stop_step (k : kind) (t : tpc) (s : st) : option (tpc * st) :=
  match k, t with
  (* dnslistener.go:75-77, dotlistener.go:66-72, dtlslistener.go:79-82: Shutdown of dns.Server. It closes a listener for TCP at once
     and only ends the reading for UDP *)
  | Dns udp _, Begin => if pub s && negb (down s) then Some (Wait, if udp then shutting s else with_sock false (shutting s))
                        else Some (Done NotStarted, s)
  (* then waits for the channel and closes the packet connection *)
  | Dns _ _, Wait => if shut s then Some (Done Took, with_sock false s) else None
  (* dohlistener.go:187-208, adminlistener.go:135-159: Shutdown of http.Server closes the listeners that are being served, and waits
     for the requests *)
  | Http, Begin => if pub s then Some (Wait, if serving s then with_sock false (shutting s) else shutting s) else Some (Done Ignored, s)
  | Http, Wait => if inflight s =? 0 then Some (Done Took, s) else None
  (* dohlistener.go:189-196, adminlistener.go:140-147, doqlistener.go:129-136 *)
  | Quic, Begin | Doq, Begin => Some (if pub s then (Close1, s) else (Done Ignored, s))
  (* dohlistener.go:197, adminlistener.go:148: http3.Server.Close aborts the requests *)
  | Quic, Close1 => Some (Close2, kill (shutting s))
  (* doqlistener.go:137: the listener is closed, established connections go on *)
  | Doq, Close1 => Some (Close2, shutting s)
  (* dohlistener.go:201, adminlistener.go:152, doqlistener.go:140 *)
  | Quic, Close2 | Doq, Close2 => Some (Close3, kill (closed_transport s))
  (* dohlistener.go:202-203, adminlistener.go:153-154, doqlistener.go:141-142 *)
  | Quic, Close3 | Doq, Close3 => Some (Done Took, with_sock false s)
  (* xsocketserver_linux.go:81-89 *)
  | Xs, Begin => Some (Done Took, if pub s then with_sock false (shutting s) else shutting s)
  | _, _ => None
  end.

(** May a query come in: on a socket that is read from, or on a QUIC connection. *)
Definition accepts (k : kind) (s : st) : bool :=
  match k with
  | Quic | Doq => pub s && negb (dead s)
  | _ => serving s && sock s
  end.

Inductive label := Go (ok : bool) | NewStop | StopStep (i : nat) | Query | Answer.
Fixpoint put {A} (i : nat) (x : A) (l : list A) : list A :=
  match i, l with O, _ :: l' => x :: l' | S i', y :: l' => y :: put i' x l' | _, [] => [] end.
Definition step (k : kind) (a : label) (s : st) : option st :=
  match a with
  | Go ok => start_step k ok s
  | NewStop => Some (with_stops (stops s ++ [Begin]) s)
  | StopStep i =>
      match nth_error (stops s) i with
      | Some t => match stop_step k t s with Some (t', s') => Some (with_stops (put i t' (stops s')) s') | None => None end
      | None => None
      end
  | Query => if accepts k s then Some (count (S (inflight s)) s) else None
  | Answer => match inflight s with O => None | S n => Some (count n s) end
  end.
Fixpoint run (k : kind) (ls : list label) (s : st) : option st :=
  match ls with [] => Some s | a :: ls' => match step k a s with Some s' => run k ls' s' | None => None end end.
