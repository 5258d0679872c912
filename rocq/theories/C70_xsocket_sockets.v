(** C70: sockets from an xsocket-server are set up, used and closed as the network and address ask. *)
From Verif Require Import Base Bytes Net Cidr_spec Net_spec Router_model Addr_model Addr_spec XDial_model XDial_spec XDial_proofs Port_spec Port_proofs.
Local Open Scope N_scope.

(** Whatever fails: the descriptor is closed exactly once, at the end, and nothing is done with it afterwards. *)
Theorem C70_listen_closed ok parseIP lookup network address o :
  let '(tr, b) := listenXSocket ok parseIP lookup network address o in tidy ok tr b.
Proof. exact (listen_tidy ok parseIP lookup network address o). Qed.
Print Assumptions C70_listen_closed.

Theorem C70_packet_closed ok parseIP lookup network address o :
  let '(tr, b) := listenPacketXSocket ok parseIP lookup network address o in tidy ok tr b.
Proof. exact (packet_tidy ok parseIP lookup network address o). Qed.
Print Assumptions C70_packet_closed.

(** Likewise for connections, once the call returns. *)
Theorem C70_dial_closed ok connect polls parseIP lookup network address o local timeout b :
  snd (dialXSocket ok connect polls parseIP lookup network address o local timeout) = Some b ->
  tidy ok (fst (dialXSocket ok connect polls parseIP lookup network address o local timeout)) b.
Proof. exact (dial_tidy ok connect polls parseIP lookup network address o local timeout b). Qed.
Print Assumptions C70_dial_closed.

(** There is a listener exactly if every call succeeds, and these are the calls: the options asked for and address reuse come before the
    socket is bound. *)
Theorem C70_listener ok parseIP lookup network address o tr : listenXSocket ok parseIP lookup network address o = (tr, true) <->
  exists sa, sockaddrFor parseIP lookup network address = Some sa /\
    tr = listen_calls network o (N.eqb (networkIPVersion network) 6) sa Stream ++ [Close] /\
    forallb ok (listen_calls network o (N.eqb (networkIPVersion network) 6) sa Stream) = true.
Proof. exact (listen_iff ok parseIP lookup network address o tr). Qed.
Print Assumptions C70_listener.

Theorem C70_packet ok parseIP lookup network address o tr : listenPacketXSocket ok parseIP lookup network address o = (tr, true) <->
  exists sa, sockaddrFor parseIP lookup network address = Some sa /\
    tr = listen_calls network o (N.eqb (networkIPVersion network) 6) sa Dgram ++ [Close] /\
    forallb ok (listen_calls network o (N.eqb (networkIPVersion network) 6) sa Dgram) = true.
Proof. exact (packet_iff ok parseIP lookup network address o tr). Qed.
Print Assumptions C70_packet.

(** An IPv6 socket takes IPv4 clients too unless the network asks for IPv6. *)
Theorem C70_v6only network : N.eqb (networkIPVersion network) 6 = true <-> ends network "6".
Proof. exact (v6_iff network). Qed.
Print Assumptions C70_v6only.

(** There is a connection exactly if every call succeeds and the connection is made, at once or later without an error; options and the
    local address are set before. *)
Theorem C70_dial ok connect polls parseIP lookup network address o local timeout tr :
  dialXSocket ok connect polls parseIP lookup network address o local timeout = (tr, Some true) <->
  exists sa t ctr, sockaddrFor parseIP lookup network address = Some sa /\ kind network t /\
    connected ok connect polls sa ctr (pollTimeout timeout) /\
    forallb ok ([GetFd (sa_domain sa) t] ++ options o ++ local_bind local ++ [File]) = true /\
    tr = [GetFd (sa_domain sa) t] ++ options o ++ local_bind local ++ ctr ++ [File; Close].
Proof. exact (dial_kind ok connect polls parseIP lookup network address o local timeout tr). Qed.
Print Assumptions C70_dial.

(** The local address is bound to unless it is none in particular. *)
Theorem C70_local local : local = [] \/ ip_ok local -> local_calls local (local_bind local).
Proof. exact (local_ok local). Qed.
Print Assumptions C70_local.

(** The socket address: host and port of the address text, the host's address being a literal, the first one found, or the wildcard; it
    is refused if the network asks for another version. *)
Theorem C70_address parseIP lookup network address sa : ips_ok parseIP lookup -> sockaddrFor parseIP lookup network address = Some sa <->
  exists host ports v ip, hostport address host ports /\ whole ports (sa_port sa) /\ version network v /\
    host_addr parseIP lookup v host ip /\ sock_of ip sa /\ (ends network "4" -> is_v4 ip) /\ (ends network "6" -> ~ is_v4 ip).
Proof. exact (address_whole parseIP lookup network address sa). Qed.
Print Assumptions C70_address.

(** The time limit is rounded down to milliseconds, but to no less than one; none stays none. *)
Theorem C70_timeout timeout : match pollTimeout timeout with
  | None => (timeout <= 0)%Z
  | Some ms => (0 < timeout)%Z /\ 0 < ms /\ (Z.of_N ms * 1000000 <= Z.max timeout 1000000)%Z /\ (timeout - 1000000 < Z.of_N ms * 1000000)%Z end.
Proof. exact (timeout_ok timeout). Qed.
Print Assumptions C70_timeout.

(** It is no limit of the whole call: it starts again whenever a signal interrupts waiting, any number of times. *)
Theorem C70_timeout_refuted ok connect sa timeout (n : nat) : ok Nonblock = true -> connect sa = CPending ->
  exists polls, connectFd ok connect polls sa timeout = ([Nonblock; Connect sa] ++ repeat (Poll (pollTimeout timeout)) (S n), Some false).
Proof. exact (wait_refuted ok connect sa timeout n). Qed.
Print Assumptions C70_timeout_refuted.

(** *** Examples *)
Definition ex_parse (s : string) : bytes := if String.eqb s "192.0.2.1" then [0; 0; 0; 0; 0; 0; 0; 0; 0; 0; 255; 255; 192; 0; 2; 1] else [].
Definition ex_lookup (v : N) (s : string) : list bytes := if N.eqb v 4 then [] else [repeat 1 16].
Example C70_ex_ips : ips_ok ex_parse ex_lookup.
Proof.
  split.
  - intros h. unfold ex_parse. destruct (String.eqb h "192.0.2.1"); [|congruence]. intros _. split; [repeat constructor|right; reflexivity].
  - intros v h. unfold ex_lookup. destruct (N.eqb v 4); constructor; [|constructor]. split; [repeat constructor|right; reflexivity].
Qed.
(** DNS over UDP with a mark: an IPv4 socket, connected at once *)
Example C70_ex_dial : dialXSocket (fun _ => true) (fun _ => CNow) [] ex_parse ex_lookup "udp" "192.0.2.1:53" (SockOpts 7 "") [10; 0; 0; 1] 0 =
  ([GetFd INET Dgram; Mark 7; Bind (SockAddr INET [10; 0; 0; 1] 0); Nonblock; Connect (SockAddr INET [192; 0; 2; 1] 53); File; Close], Some true).
Proof. reflexivity. Qed.
(** TCP, refused after a while: closed *)
Example C70_ex_fail : dialXSocket (fun c => match c with SoError => false | _ => true end) (fun _ => CPending) [PEintr; PReady] ex_parse ex_lookup "tcp" "example.com:53" (SockOpts 0 "") [] 2000000 =
  ([GetFd INET6 Stream; Nonblock; Connect (SockAddr INET6 (repeat 1 16) 53); Poll (Some 2); Poll (Some 2); SoError; Close], Some false).
Proof. reflexivity. Qed.
(** All addresses, both families *)
Example C70_ex_listen : listenXSocket (fun _ => true) ex_parse ex_lookup "tcp" ":853" (SockOpts 0 "eth0") =
  ([GetFd INET6 Stream; BindToDevice "eth0"; Reuse; V6only false; Bind (SockAddr INET6 (repeat 0 16) 853); Listen; File; Close], true).
Proof. reflexivity. Qed.
Example C70_ex_bind_fails : listenPacketXSocket (fun c => match c with Bind _ => false | _ => true end) ex_parse ex_lookup "udp4" ":53" (SockOpts 0 "") =
  ([GetFd INET Dgram; Reuse; Bind (SockAddr INET [0; 0; 0; 0] 53); Close], false).
Proof. reflexivity. Qed.
Example C70_ex_family : sockaddrFor ex_parse ex_lookup "udp6" "192.0.2.1:53" = None /\ ends "udp6" "6".
Proof. split; [reflexivity|exists "udp"%string; reflexivity]. Qed.
