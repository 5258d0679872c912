(** C53: the server that hands out sockets. *)
From Verif Require Import Base Bytes XSocket_model XSocket_spec XSocket_proofs.
Local Open Scope N_scope.

(** Whatever arrives and whatever the kernel answers: without the option unrestricted every socket that is created is an IPv4 or IPv6 socket
    for TCP or UDP. *)
Theorem C53_restricted : forall (sock : nat -> N -> N -> N -> N + nat) (sent : nat -> bool) msgs i d t p r, In (Socket d t p r) (handle false sock sent i msgs) -> ip_socket d t p.
Proof. exact restricted. Qed.
Print Assumptions C53_restricted.
Theorem C53_allowed : forall d t p, allowedSocket d t p = true <-> ip_socket d t p.
Proof. exact allowed_iff. Qed.
Print Assumptions C53_allowed.
(** A message that is shorter than 16 bytes or does not start with XS01 closes the connection: no socket, no answer, and what follows is not
    looked at. *)
Theorem C53_malformed : forall (u : bool) (sock : nat -> N -> N -> N -> N + nat) (sent : nat -> bool) i m msgs, Forall (fun b => b < 256) m -> ~ well_formed m -> handle u sock sent i (Some m :: msgs) = [CloseConn].
Proof. exact malformed. Qed.
Print Assumptions C53_malformed.
(** The three outcomes of a request. The socket is created: its descriptor is sent in one answer, and the own copy is closed *)
Theorem C53_created : forall (u : bool) (sock : nat -> N -> N -> N -> N + nat) (sent : nat -> bool) i d da t ta p pa extra msgs fd,
  be32 d da -> be32 t ta -> be32 p pa -> u = true \/ ip_socket d t p -> sock i d (N.lor t 524288) p = inr fd ->
  handle u sock sent i (Some ([88; 83; 48; 49] ++ da ++ ta ++ pa ++ extra) :: msgs) =
  Socket d (N.lor t 524288) p (inr fd) :: Send [88; 83; 48; 50; 0; 0; 0; 0] [fd] :: CloseFd fd :: (if sent i then handle u sock sent (S i) msgs else [CloseConn]).
Proof. exact created. Qed.
Print Assumptions C53_created.
(** The kernel refuses: the answer carries its error number and no descriptor *)
Theorem C53_failed : forall (u : bool) (sock : nat -> N -> N -> N -> N + nat) (sent : nat -> bool) i d da t ta p pa extra msgs e,
  be32 d da -> be32 t ta -> be32 p pa -> u = true \/ ip_socket d t p -> sock i d (N.lor t 524288) p = inl e -> e < 4294967296 -> exists eb, be32 e eb /\
  handle u sock sent i (Some ([88; 83; 48; 49] ++ da ++ ta ++ pa ++ extra) :: msgs) =
  Socket d (N.lor t 524288) p (inl e) :: Send ([88; 83; 48; 50] ++ eb) [] :: (if sent i then handle u sock sent (S i) msgs else [CloseConn]).
Proof. exact failed. Qed.
Print Assumptions C53_failed.
(** The socket is not permitted: EPERM, and the kernel is not asked *)
Theorem C53_refused : forall (u : bool) (sock : nat -> N -> N -> N -> N + nat) (sent : nat -> bool) i d da t ta p pa extra msgs,
  be32 d da -> be32 t ta -> be32 p pa -> u = false -> ~ ip_socket d t p ->
  handle u sock sent i (Some ([88; 83; 48; 49] ++ da ++ ta ++ pa ++ extra) :: msgs) =
  Send [88; 83; 48; 50; 0; 0; 0; 1] [] :: (if sent i then handle u sock sent (S i) msgs else [CloseConn]).
Proof. exact refused. Qed.
Print Assumptions C53_refused.
(** No descriptor stays with the server. *)
Theorem C53_closed : forall (u : bool) (sock : nat -> N -> N -> N -> N + nat) (sent : nat -> bool) i msgs fd d t p,
  In (Socket d t p (inr fd)) (handle u sock sent i msgs) -> In (CloseFd fd) (handle u sock sent i msgs).
Proof. exact closed. Qed.
Print Assumptions C53_closed.
(** The client's request is one that the server understands, and it takes the descriptor out of the answer. *)
Theorem C53_request : forall d t p, d < 4294967296 -> t < 4294967296 -> p < 4294967296 -> exists da ta pa, be32 d da /\ be32 t ta /\ be32 p pa /\ request d t p = [88; 83; 48; 49] ++ da ++ ta ++ pa.
Proof. exact request_bytes. Qed.
Print Assumptions C53_request.
Theorem C53_answer : forall fd, response [88; 83; 48; 50; 0; 0; 0; 0] [fd] = (Some fd, []).
Proof. exact client_gets. Qed.
Print Assumptions C53_answer.
Theorem C53_error : forall e eb fds, be32 e eb -> e <> 0 -> response ([88; 83; 48; 50] ++ eb) fds = (None, fds).
Proof. exact client_error. Qed.
Print Assumptions C53_error.
(** After an answer with the right signature every descriptor is returned or closed; *)
Theorem C53_client : forall data fds, well_signed data -> (exists fd rest, fds = fd :: rest /\ response data fds = (Some fd, rest)) \/ response data fds = (None, fds).
Proof. exact client_keeps. Qed.
Print Assumptions C53_client.
(** after any other answer they leak. *)
Theorem C53_client_refuted : exists data fds, fds <> [] /\ response data fds = (None, []).
Proof. exact client_leak. Qed.
Print Assumptions C53_client_refuted.

(** A TCP socket is handed out, a raw socket is refused, and a message that is malformed ends the connection before the fourth is read. *)
Example conversation :
  handle false (fun i _ _ _ => inr (7 + i)%nat) (fun _ => true) 0 [Some (request 2 1 6); Some (request 2 3 1); Some [1; 2; 3]; Some (request 2 1 6)] =
  [Socket 2 524289 6 (inr 7%nat); Send [88; 83; 48; 50; 0; 0; 0; 0] [7%nat]; CloseFd 7; Send [88; 83; 48; 50; 0; 0; 0; 1] []; CloseConn].
Proof. reflexivity. Qed.
Example tcp : ip_socket 10 (1 + 2048) 0.
Proof. split; [auto|]. exists 1. auto 6. Qed.
Example raw : ~ ip_socket 2 3 1.
Proof. intros (_ & base & [[-> _]|[-> _]] & [H|[H|[H|H]]]); discriminate H. Qed.
Example unix_socket : ~ ip_socket 1 1 0.
Proof. intros ([H|H] & _); discriminate H. Qed.
Example short : ~ well_formed [88; 83; 48; 49; 0].
Proof. intros (a & b & E & L). apply (f_equal (@length N)) in E. rewrite !app_length in E. cbn [length] in E. lia. Qed.
