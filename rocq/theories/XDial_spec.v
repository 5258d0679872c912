From Verif Require Import Base Bytes Net Cidr_spec Net_spec XDial_model.
Local Open Scope N_scope.

Definition quiet (c : call) : Prop := match c with GetFd _ _ | Close | File => False | _ => True end.
(** What became of the descriptor: none was asked for; none was got; it was closed once, at the end, and if there is a connection it is its
    duplicate *)
Inductive tidy (ok : call -> bool) : list call -> bool -> Prop :=
| T_none : tidy ok [] false
| T_refused d t : ok (GetFd d t) = false -> tidy ok [GetFd d t] false
| T_closed d t l : ok (GetFd d t) = true -> Forall quiet l -> tidy ok (GetFd d t :: l ++ [Close]) false
| T_file d t l : ok (GetFd d t) = true -> Forall quiet l -> tidy ok (GetFd d t :: l ++ [File; Close]) (ok File).
(** The options to be set, in this order *)
Definition options (o : sockopts) : list call :=
  (if N.eqb (o_mark o) 0 then [] else [Mark (o_mark o)]) ++ (if String.eqb (o_bind o) "" then [] else [BindToDevice (o_bind o)]).
Definition listen_calls (network : string) (o : sockopts) (v6only : bool) (sa : sockaddr) (t : socktype) : list call :=
  [GetFd (sa_domain sa) t] ++ options o ++ [Reuse] ++ match sa_domain sa with INET => [] | INET6 => [V6only v6only] end ++ [Bind sa] ++
  match t with Stream => [Listen] | Dgram => [] end ++ [File].

(** A network that asks for IPv4 or IPv6 *)
Definition ends (network suffix : string) : Prop := exists s, network = (s ++ suffix)%string.
Definition version (network : string) (v : N) : Prop :=
  (ends network "4" /\ v = 4) \/ (ends network "6" /\ v = 6) \/ (~ ends network "4" /\ ~ ends network "6" /\ v = 0).
(** The address of a host: the wildcard address for none, an address as it is, else the first one found *)
Definition host_addr (parseIP : string -> bytes) (lookup : N -> string -> list bytes) (v : N) (host : string) (ip : bytes) : Prop :=
  (host = ""%string /\ ip = if N.eqb v 4 then [0; 0; 0; 0; 0; 0; 0; 0; 0; 0; 255; 255; 0; 0; 0; 0] else [0; 0; 0; 0; 0; 0; 0; 0; 0; 0; 0; 0; 0; 0; 0; 0]) \/
  (host <> ""%string /\ parseIP host <> [] /\ ip = parseIP host) \/
  (host <> ""%string /\ parseIP host = [] /\ exists l, lookup v host = ip :: l).
(** The socket address of an IP address: IPv4 addresses (also mapped ones) are four octets *)
Definition sock_of (ip : bytes) (sa : sockaddr) : Prop :=
  (is_v4 ip /\ sa_domain sa = INET /\ length (sa_addr sa) = 4%nat /\ exists l, ip = l ++ sa_addr sa) \/
  (~ is_v4 ip /\ sa_domain sa = INET6 /\ sa_addr sa = ip).
(** No particular address: 0.0.0.0 in either form, or :: *)
Definition unspecified (ip : bytes) : Prop :=
  ip = [0; 0; 0; 0] \/ ip = [0; 0; 0; 0; 0; 0; 0; 0; 0; 0; 255; 255; 0; 0; 0; 0] \/ ip = [0; 0; 0; 0; 0; 0; 0; 0; 0; 0; 0; 0; 0; 0; 0; 0].
Definition local_calls (local : bytes) (l : list call) : Prop :=
  ((local = [] \/ unspecified local) /\ l = []) \/
  (local <> [] /\ ~ unspecified local /\ exists sa, sock_of local sa /\ sa_port sa = 0%Z /\ l = [Bind sa]).
(** A connection is there only if the connection was made at once or the descriptor became writable without an error *)
Definition connected (ok : call -> bool) (connect : sockaddr -> connres) (polls : list pollres) (sa : sockaddr) (ctr : list call) (ms : option N) : Prop :=
  ok Nonblock = true /\
  ((connect sa = CNow /\ ctr = [Nonblock; Connect sa]) \/
   (connect sa = CPending /\ ok SoError = true /\ exists n l, polls = repeat PEintr n ++ PReady :: l /\
      ctr = [Nonblock; Connect sa] ++ repeat (Poll ms) (S n) ++ [SoError])).
