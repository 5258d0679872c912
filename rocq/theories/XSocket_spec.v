(** Which sockets may be handed out *)
From Verif Require Import Base Bytes XSocket_model.
Local Open Scope N_scope.

(** IPv4 or IPv6, and TCP or UDP: [base] is SOCK_STREAM with protocol 0 or TCP, or SOCK_DGRAM with 0 or UDP; the type may carry the flags
    SOCK_NONBLOCK (2048) and SOCK_CLOEXEC (524288). *)
Definition ip_socket (domain typ proto : N) : Prop :=
  (domain = 2 \/ domain = 10) /\
  exists base, (base = 1 /\ (proto = 0 \/ proto = 6) \/ base = 2 /\ (proto = 0 \/ proto = 17)) /\
    (typ = base \/ typ = base + 2048 \/ typ = base + 524288 \/ typ = base + 526336).
(** A message of at least 16 bytes that starts with XS01 *)
Definition well_formed (m : list N) : Prop := exists a b, m = [88; 83; 48; 49] ++ a ++ b /\ length a = 12%nat.
(** A number in network byte order *)
Definition be32 (n : N) (l : list N) : Prop :=
  exists a b c d, l = [a; b; c; d] /\ a < 256 /\ b < 256 /\ c < 256 /\ d < 256 /\ n = 16777216 * a + 65536 * b + 256 * c + d.
(** A response of at least 8 bytes that starts with XS02 *)
Definition well_signed (m : list N) : Prop := exists a b, m = [88; 83; 48; 50] ++ a ++ b /\ length a = 4%nat.
