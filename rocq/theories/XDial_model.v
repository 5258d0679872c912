(** xsocket_linux.go: sockets obtained from an xsocket-server, bound, listened on or connected; sockopts_linux.go. The protocol itself
    (xsocketGetFd) is in XSocket_model.v. Quantified: results of system calls and lookups. *)
From Verif Require Import Base Bytes Net Router_model Addr_model.
Local Open Scope N_scope.

(** A socket address: IPv4 or IPv6, octets, port. unix.SockaddrInet4 and 6 reject ports outside of 0 to 65535 when used (EINVAL). *)
Inductive domain := INET | INET6.
Inductive socktype := Stream | Dgram.
Record sockaddr := SockAddr { sa_domain : domain; sa_addr : bytes; sa_port : Z }.

(** System calls on the descriptor, in the order made. File is net.FileListener, FilePacketConn or FileConn, which duplicates it. *)
Inductive call :=
| GetFd (d : domain) (t : socktype) | Mark (m : N) | BindToDevice (i : string) | Reuse | V6only (b : bool)
| Bind (a : sockaddr) | Listen | Nonblock | Connect (a : sockaddr) | Poll (ms : option N) | SoError | File | Close.
(** sockopts.go SocketOptions *)
Record sockopts := SockOpts { o_mark : N; o_bind : string }.

Section Calls.
(** Does a call succeed (for File: is there a connection) *)
Variable ok : call -> bool.
Inductive connres := CNow | CPending | CFail.   (* nil; EINPROGRESS or EINTR; another error *)
Variable connect : sockaddr -> connres.
Inductive pollres := PEintr | PFail | PTimeout | PReady.
(** What Poll returns each time; a list that ends with PEintr: it is still waiting *)
Variable polls : list pollres.

(** sockopts_linux.go:13-25 applyToFd: the calls made, and whether there is no error *)
Definition applyToFd (o : sockopts) : list call * bool :=
  let mark := if N.ltb 0 (o_mark o) then [Mark (o_mark o)] else [] in
  if N.ltb 0 (o_mark o) && negb (ok (Mark (o_mark o))) then (mark, false)
  else if String.eqb (o_bind o) "" then (mark, true)
  else (mark ++ [BindToDevice (o_bind o)], ok (BindToDevice (o_bind o))).

(** xsocket_linux.go:352-361 networkIPVersion; 0 for none *)
Fixpoint last_char (s : string) : option ascii := match s with EmptyString => None | String c EmptyString => Some c | String _ s' => last_char s' end.
Definition networkIPVersion (network : string) : N :=
  match last_char network with Some c => if Ascii.eqb c "4" then 4 else if Ascii.eqb c "6" then 6 else 0 | None => 0 end.

(** xsocket_linux.go:216-232 setupListenSocket *)
Definition setupListenSocket (d : domain) (network : string) (o : sockopts) : list call * bool :=
  let '(tr, b) := applyToFd o in
  if negb b then (tr, false)
  else if negb (ok Reuse) then (tr ++ [Reuse], false)
  else match d with
  | INET => (tr ++ [Reuse], true)
  | INET6 => let v := N.eqb (networkIPVersion network) 6 in (tr ++ [Reuse; V6only v], ok (V6only v))
  end.

(** xsocket_linux.go:339-348 sockaddrFromIP *)
Definition sockaddrFromIP (ip : bytes) (port : Z) : sockaddr :=
  match to4 ip with Some ip4 => SockAddr INET ip4 port | None => SockAddr INET6 ip port end.
(** net.ParseIP ([] is nil) and LookupIP for a version (0: both); [] also for an error *)
Variable parseIP : string -> bytes.
Variable lookup : N -> string -> list bytes.
(** net.IPv4zero (in 16 octets), net.IPv6unspecified *)
Definition IPv4zero : bytes := [0; 0; 0; 0; 0; 0; 0; 0; 0; 0; 255; 255; 0; 0; 0; 0].
Definition IPv6unspecified : bytes := repeat 0 16.
(** xsocket_linux.go:301-320 the address of a host; None is an error *)
Definition host_ip (v : N) (host : string) : option bytes :=
  if String.eqb host "" then Some (if N.eqb v 4 then IPv4zero else IPv6unspecified)
  else match parseIP host with
       | [] => match lookup v host with [] => None | ip :: _ => Some ip end
       | ip => Some ip
       end.
(** xsocket_linux.go:286-329 sockaddrFor; None is an error *)
Definition sockaddrFor (network address : string) : option sockaddr :=
  match SplitHostPort address with
  | None => None
  | Some (host, portStr) =>
      match atoi portStr with
      | None => None
      | Some port =>
          let v := networkIPVersion network in
          match host_ip v host with
          | None => None
          | Some ip =>
              if N.eqb v 4 && match to4 ip with None => true | _ => false end then None
              else if N.eqb v 6 && match to4 ip with Some _ => true | _ => false end then None
              else Some (sockaddrFromIP ip port)
          end
      end
  end.

(** xsocket_linux.go:96-124 listenXSocket; 128-152 listenPacketXSocket. true: there is a listener. *)
Definition listenXSocket (network address : string) (o : sockopts) : list call * bool :=
  match sockaddrFor network address with
  | None => ([], false)
  | Some sa =>
      let get := GetFd (sa_domain sa) Stream in
      if negb (ok get) then ([get], false)
      else let '(tr, b) := setupListenSocket (sa_domain sa) network o in
      if negb b then (get :: tr ++ [Close], false)
      else if negb (ok (Bind sa)) then (get :: tr ++ [Bind sa; Close], false)
      else if negb (ok Listen) then (get :: tr ++ [Bind sa; Listen; Close], false)
      else (get :: tr ++ [Bind sa; Listen; File; Close], ok File)
  end.
Definition listenPacketXSocket (network address : string) (o : sockopts) : list call * bool :=
  match sockaddrFor network address with
  | None => ([], false)
  | Some sa =>
      let get := GetFd (sa_domain sa) Dgram in
      if negb (ok get) then ([get], false)
      else let '(tr, b) := setupListenSocket (sa_domain sa) network o in
      if negb b then (get :: tr ++ [Close], false)
      else if negb (ok (Bind sa)) then (get :: tr ++ [Bind sa; Close], false)
      else (get :: tr ++ [Bind sa; File; Close], ok File)
  end.

(** xsocket_linux.go:248-253 the timeout of Poll, in ms; timeouts are in ns, negative or 0: none *)
Definition pollTimeout (timeout : Z) : option N :=
  if Z.ltb 0 timeout then Some (let ms := Z.to_N (timeout / 1000000) in if N.eqb ms 0 then 1 else ms) else None.
(** xsocket_linux.go:255-268 the loop; None: still waiting *)
Fixpoint poll_loop (ms : option N) (l : list pollres) : list call * option bool :=
  match l with
  | [] => ([Poll ms], None)
  | PEintr :: l' => let '(tr, r) := poll_loop ms l' in (Poll ms :: tr, r)
  | PFail :: _ | PTimeout :: _ => ([Poll ms], Some false)
  | PReady :: _ => ([Poll ms], Some true)
  end.
(** xsocket_linux.go:235-278 connectFd *)
Definition connectFd (sa : sockaddr) (timeout : Z) : list call * option bool :=
  if negb (ok Nonblock) then ([Nonblock], Some false)
  else match connect sa with
  | CNow => ([Nonblock; Connect sa], Some true)
  | CFail => ([Nonblock; Connect sa], Some false)
  | CPending =>
      let '(tr, r) := poll_loop (pollTimeout timeout) polls in
      match r with
      | Some true => ([Nonblock; Connect sa] ++ tr ++ [SoError], Some (ok SoError))
      | _ => ([Nonblock; Connect sa] ++ tr, r)
      end
  end.

(** IP.IsUnspecified: 0.0.0.0 (in either form) or :: *)
Definition IsUnspecified (ip : bytes) : bool :=
  match to4 ip with Some x => forallb (N.eqb 0) x | None => Nat.eqb (length ip) 16 && forallb (N.eqb 0) ip end.
(** xsocket_linux.go:178-187 the type for a network *)
Definition socketType (network : string) : option socktype :=
  if prefix "tcp" network then Some Stream else if prefix "udp" network then Some Dgram else None.
(** xsocket_linux.go:172-214 dialXSocket. The last component: None while waiting, else whether there is a connection. *)
Definition dialXSocket (network address : string) (o : sockopts) (localAddr : bytes) (timeout : Z) : list call * option bool :=
  match sockaddrFor network address with
  | None => ([], Some false)
  | Some sa =>
      match socketType network with
      | None => ([], Some false)
      | Some t =>
          let get := GetFd (sa_domain sa) t in
          if negb (ok get) then ([get], Some false)
          else let '(tr, b) := applyToFd o in
          if negb b then (get :: tr ++ [Close], Some false)
          else
            let local := match localAddr with [] => None | _ => if IsUnspecified localAddr then None else Some (sockaddrFromIP localAddr 0) end in
            let bind := match local with None => [] | Some l => [Bind l] end in
            if match local with None => false | Some l => negb (ok (Bind l)) end then (get :: tr ++ bind ++ [Close], Some false)
            else let '(ctr, r) := connectFd sa timeout in
            match r with
            | None => (get :: tr ++ bind ++ ctr, None)
            | Some false => (get :: tr ++ bind ++ ctr ++ [Close], Some false)
            | Some true => (get :: tr ++ bind ++ ctr ++ [File; Close], Some (ok File))
            end
      end
  end.
End Calls.
