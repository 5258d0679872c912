(** C58: limits of HTTP bodies (dohclient.go readBoundedBody, dohlistener.go postHandler). *)
From Verif Require Import Base Bytes Dns Modifiers_model Listener_model Listener_spec Listener_proofs3 Client_model Client_spec Client_proofs Client_proofs2.
Local Open Scope N_scope.

(** A body is returned completely if it is within the limit and arrived without error, otherwise
    not at all. *)
Theorem C58_read limit body broken b : readBoundedBody limit body broken = Some b <-> b = body /\ (length body <= limit)%nat /\ broken = false.
Proof. exact (bounded_body limit body broken b). Qed.
Print Assumptions C58_read.

(** What DoH and ODoH clients return comes from such a body. *)
Theorem C58_client base optlen unpack pack base64 expand http encrypt decrypt config with_target o q a :
  (snd (doh_resolve base optlen unpack pack base64 expand http o q) = Ans a \/
   snd (odoh_resolve unpack pack base64 expand http encrypt decrypt config with_target o q) = Ans a) ->
  exists req r, http req = Some r /\ hr_broken r = false /\ N.of_nat (length (hr_body r)) <= 66047 /\
    (unpack (hr_body r) = Some a \/ exists d, decrypt (hr_body r) = Some d /\ unpack d = Some a).
Proof. exact (client_body base optlen unpack pack base64 expand http encrypt decrypt config with_target o q a). Qed.
Print Assumptions C58_client.

(** The server answers 413 to larger requests. *)
Theorem C58_server resolve base optlen unpack pack base64dec splitHost parseIP o r :
  h_method r = "POST"%string -> 65535 < N.of_nat (length (h_body r)) ->
  dohHandler resolve base optlen unpack pack base64dec splitHost parseIP o r = ([], Status 413).
Proof. exact (doh_toolarge resolve base optlen unpack pack base64dec splitHost parseIP o r). Qed.
Print Assumptions C58_server.

(** Examples *)
Example C58_whole : readBoundedBody 3 [1;2;3] false = Some [1;2;3].
Proof. reflexivity. Qed.
Example C58_long : readBoundedBody 3 [1;2;3;4] false = None.
Proof. reflexivity. Qed.
Example C58_broken : readBoundedBody 3 [1;2] true = None.
Proof. reflexivity. Qed.
