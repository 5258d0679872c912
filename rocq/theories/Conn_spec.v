(** DoQ connections, for the counters. *)
From Verif Require Import Base Bytes Dns Metrics_spec.
From Verif Require Listener_model.
Local Open Scope nat_scope.
(** A connection: how its queries are resolved, where it comes from, and for each stream the handshake, whether the reply could be sent, and
    the octets received *)
Record doqconn := DoqConn { cn_resolve : msg -> client -> result; cn_src : bytes; cn_tls : string; cn_streams : list (Listener_model.handshake * bool * bytes) }.
(** The calls for its streams *)
Definition stream_calls (id : string) (c : doqconn) : list doqcall :=
  map (fun s => DoqCall (cn_resolve c) (Client (cn_src c) "" (cn_tls c) id) (fst (fst s)) (snd (fst s)) (snd s)) (cn_streams c).
