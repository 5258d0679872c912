(** Lookups of host names through the bootstrap resolver: net-resolver.go, which main.go:204-209 puts in place of net.DefaultResolver,
    together with the part of Go's resolver that uses it (package net, dnsclient_unix.go: dnsPacketRoundTrip, exchange, tryOneName; not
    in /repo, written down here as Go 1.25 has it). Go looks for a PacketConn (which packetConn is, net-resolver.go:66-72), whatever the
    network it asked for, and closes the connection after one exchange.
    Not modelled: which names are asked for (search list), and reading records out of the answer. *)
From Verif Require Import Base Bytes Dns.
Local Open Scope N_scope.

(** What Go's parser sees of a message: the header, and the questions; an unreadable first question counts as none *)
Record ghead := GHead { g_id : N; g_response : bool; g_tc : bool; g_questions : list question }.
(** What a lookup, or a part of it, ends with. Hang: it waits for ever *)
Inductive got := Got (b : bytes) | Failed | Hang.
(** maxDNSPacketSize of Go *)
Definition bufsize : N := 1232.

Section LOOKUP.
Variable resolve : nat -> msg -> client -> result.   (* the bootstrap resolver: what its n-th call gives *)
Variable unpack : bytes -> option msg.        (* dns.Msg.Unpack, Pack *)
Variable pack : msg -> option bytes.
Variable parse : bytes -> option ghead.       (* dnsmessage.Parser *)

(** net-resolver.go:74-92 Write on a connection whose channel is empty (Go writes once): the calls of Resolve, and the channel, or None for an error *)
Definition Write (n : nat) (p : bytes) : list (msg * client) * option (list msg) :=
  match unpack p with
  | None => ([], None)
  | Some q =>
      let ci := Client [127;0;0;1] "" "" "" in
      ([(q, ci)], match resolve n q ci with Ans a => Some [a] | Drop => None | Err _ => None end)
  end.
(** net-resolver.go:51-62 Read of a message from the channel into [size] bytes; None: an error *)
Definition Read (size : N) (a : msg) : option bytes :=
  match pack a with None => None | Some b => if size <? N.of_nat (length b) then None else Some b end.
(** Go: checkResponse *)
Definition checkResponse (id : N) (q : question) (h : ghead) : bool :=
  g_response h && N.eqb (g_id h) id &&
  match g_questions h with
  | [] => false
  | x :: _ => N.eqb (q_type x) (q_type q) && N.eqb (q_class x) (q_class q) && equal_fold (q_name x) (q_name q)
  end.
(** Go: the loop of dnsPacketRoundTrip over what is in the channel; on an empty one Read waits, and there is no deadline (net-resolver.go:106-116) *)
Fixpoint receive (id : N) (q : question) (ch : list msg) : got * option ghead :=
  match ch with
  | [] => (Hang, None)
  | a :: ch' =>
      match Read bufsize a with
      | None => (Failed, None)
      | Some b =>
          match parse b with
          | None => receive id q ch'
          | Some h => if checkResponse id q h then (Got b, Some h) else receive id q ch'
          end
      end
  end.
Definition dnsPacketRoundTrip (n : nat) (id : N) (q : question) (p : bytes) : list (msg * client) * (got * option ghead) :=
  let '(calls, ch) := Write n p in (calls, match ch with None => (Failed, None) | Some ch => receive id q ch end).
(** Go: exchange; the networks are udp and tcp, or only tcp. The message must have one question *)
Fixpoint exchange (networks : list bool) (n : nat) (id : N) (q : question) (p : bytes) : list (msg * client) * got :=
  match networks with
  | [] => ([], Failed)
  | udp :: networks' =>
      let '(calls, (r, h)) := dnsPacketRoundTrip n id q p in
      match r, h with
      | Got b, Some h =>
          match g_questions h with
          | [_] => if g_tc h && udp then let '(calls', r') := exchange networks' (n + length calls)%nat id q p in (calls ++ calls', r') else (calls, Got b)
          | _ => (calls, Failed)
          end
      | r, _ => (calls, r)
      end
  end.
Definition networks (useTCP : bool) : list bool := if useTCP then [false] else [true; false].
(** Go: tryOneName. One ID (and so one request) for each of the attempts, which are servers times attempts of resolv.conf. [final]: the
    answer settles it (records, or no such name); otherwise the next attempt *)
Variable final : bytes -> bool.
Fixpoint tryOneName (useTCP : bool) (n : nat) (q : question) (requests : list (N * bytes)) : list (msg * client) * got :=
  match requests with
  | [] => ([], Failed)
  | (id, p) :: requests' =>
      let '(calls, r) := exchange (networks useTCP) n id q p in
      match r with
      | Hang => (calls, Hang)
      | Got b => if final b then (calls, Got b) else let '(calls', r') := tryOneName useTCP (n + length calls)%nat q requests' in (calls ++ calls', r')
      | Failed => let '(calls', r') := tryOneName useTCP (n + length calls)%nat q requests' in (calls ++ calls', r')
      end
  end.
End LOOKUP.
