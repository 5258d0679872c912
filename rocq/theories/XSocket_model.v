(** xsocketserver_linux.go, xsocket_linux.go: the server that hands out sockets, and its client. *)
From Verif Require Import Base Bytes.
Local Open Scope N_scope.

(** encoding/binary: BigEndian.Uint32 at an offset, PutUint32 *)
Definition get32 (off : nat) (l : list N) : N := ((nth off l 0 * 256 + nth (off + 1) l 0) * 256 + nth (off + 2) l 0) * 256 + nth (off + 3) l 0.
Definition put32 (n : N) : list N := [n / 16777216 mod 256; n / 65536 mod 256; n / 256 mod 256; n mod 256].
(** xsocket_linux.go:21-24 *)
Definition xsProtocolRequest : N := 1481846833.    (* 0x58533031 *)
Definition xsProtocolResponse : N := 1481846834.   (* 0x58533032 *)
(** Constants of Linux *)
Definition AF_INET : N := 2.
Definition AF_INET6 : N := 10.
Definition SOCK_STREAM : N := 1.
Definition SOCK_DGRAM : N := 2.
Definition SOCK_CLOEXEC : N := 524288.
Definition SOCK_NONBLOCK : N := 2048.
Definition IPPROTO_TCP : N := 6.
Definition IPPROTO_UDP : N := 17.
Definition EPERM : N := 1.

(** xsocketserver_linux.go:195-206 allowedSocket; an int has 64 bits *)
Definition allowedSocket (domain typ proto : N) : bool :=
  if negb (domain =? AF_INET) && negb (domain =? AF_INET6) then false
  else let t := N.ldiff typ (N.lor SOCK_CLOEXEC SOCK_NONBLOCK) in
       if t =? SOCK_STREAM then (proto =? 0) || (proto =? IPPROTO_TCP)
       else if t =? SOCK_DGRAM then (proto =? 0) || (proto =? IPPROTO_UDP)
       else false.

(** What is done: socket(2) with its outcome, a response message with descriptors, close(2), the end of the connection *)
Inductive event := Socket (domain typ proto : N) (r : N + nat) | Send (data : list N) (fds : list nat) | CloseFd (fd : nat) | CloseConn.
Section SERVER.
Variable unrestricted : bool.
(** The kernel: outcome of the socket(2) call for the i-th request (errno or descriptor), and whether the i-th response can be sent *)
Variable sock : nat -> N -> N -> N -> N + nat.
Variable sent : nat -> bool.
(** xsocketserver_linux.go:126-174 handle on the messages that arrive; None is a failing read, and the list ends with the connection. A
    read takes one message and drops what does not fit. *)
Fixpoint handle (i : nat) (msgs : list (option (list N))) : list event :=
  match msgs with
  | [] => [CloseConn]
  | None :: _ => [CloseConn]
  | Some m :: msgs' =>
      let req := firstn 16 m in
      if Nat.eqb (length req) 0 then [CloseConn]
      else if Nat.ltb (length req) 16 || negb (get32 0 req =? xsProtocolRequest) then [CloseConn]
      else
        let domain := get32 4 req in let typ := get32 8 req in let proto := get32 12 req in
        let answer errno fds := Send (put32 xsProtocolResponse ++ put32 errno) fds :: map CloseFd fds ++ (if sent i then handle (S i) msgs' else [CloseConn]) in
        if negb unrestricted && negb (allowedSocket domain typ proto) then answer EPERM []
        else
          let t := N.lor typ SOCK_CLOEXEC in
          let r := sock i domain t proto in
          Socket domain t proto r :: match r with inl errno => answer errno [] | inr fd => answer 0 [fd] end
  end.
End SERVER.

(** xsocket_linux.go:45-49, the request *)
Definition request (domain typ proto : N) : list N := put32 xsProtocolRequest ++ put32 domain ++ put32 typ ++ put32 proto.
(** xsocket_linux.go:54-90, what is made of the response: the data as received (at most 8 bytes) and the descriptors that came with it.
    The outcome and the descriptors that are closed. *)
Definition response (data : list N) (fds : list nat) : option nat * list nat :=
  if Nat.ltb (length (firstn 8 data)) 8 then (None, [])
  else if negb (get32 0 data =? xsProtocolResponse) then (None, [])
  else if negb (get32 4 data =? 0) then (None, fds)
  else match fds with [] => (None, []) | fd :: rest => (Some fd, rest) end.
