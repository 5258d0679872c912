(** C66: the ODoH proxy contacts only well-formed targets, over https, and relays only ODoH messages. *)
From Verif Require Import Base Bytes Net Odoh_model Odoh_spec Odoh_proofs.
Local Open Scope string_scope.

(** An acceptable request is sent on exactly once, to the host and path named in it; the client gets what becomes of it. *)
Theorem C66_forward do_ nets r : acceptable r -> exists f, sent r f /\ ODoHproxyHandler do_ nets r = ([f], relay (do_ f)).
Proof. exact (handler_ok do_ nets r). Qed.
Print Assumptions C66_forward.

(** Nothing is sent for any other request. *)
Theorem C66_reject do_ nets r : ~ acceptable r -> exists n, ODoHproxyHandler do_ nets r = ([], PStatus n) /\ (n = 400 \/ n = 405)%N.
Proof. exact (handler_no do_ nets r). Qed.
Print Assumptions C66_reject.

(** The host of a target consists of letters, digits, hyphens and dots, so that it has no port, user, path or IPv6 literal in it; it ends
    with a letter, so that it is no IPv4 address. *)
Theorem C66_host s : domain s -> chars (fun c => ldh c \/ c = "."%char) s /\ exists a c, s = a ++ String c "" /\ letter c.
Proof. exact (fun D => conj (domain_chars s D) (domain_last s D)). Qed.
Print Assumptions C66_host.

(** A body reaches the client only from a target that answered 200 with the content type of ODoH. *)
Theorem C66_relay o ct b cut : relay o = PBody ct b cut <->
  ct = "application/oblivious-dns-message" /\ exists t, o = Some t /\ t_status t = 200%N /\ t_ctype t = "application/oblivious-dns-message" /\ t_body t = b /\ t_broken t = cut.
Proof. exact (relay_body o ct b cut). Qed.
Print Assumptions C66_relay.

(** Any other outcome is a status: 500 if there is no response, 502 for another content type, else the target's. *)
Theorem C66_status o : (o = None -> relay o = PStatus 500) /\
  (forall t, o = Some t -> t_status t <> 200%N -> (100 <= t_status t)%N -> relay o = PStatus (t_status t)) /\
  (forall t, o = Some t -> t_status t = 200%N -> t_ctype t <> "application/oblivious-dns-message" -> relay o = PStatus 502).
Proof. exact (relay_status o). Qed.
Print Assumptions C66_status.

(** "A target can not make the handler panic" fails: a status below 100 does. *)
Theorem C66_panic_refuted : exists t, relay (Some t) = PPanic.
Proof. exact relay_panic. Qed.
Print Assumptions C66_panic_refuted.

(** "The proxy serves only clients in AllowedNet" fails: the networks do not matter. *)
Theorem C66_open_refuted do_ nets nets' r : ODoHproxyHandler do_ nets r = ODoHproxyHandler do_ nets' r.
Proof. exact (handler_open do_ nets nets' r). Qed.
Print Assumptions C66_open_refuted.

(** "A body over 4096 octets is rejected" fails: its start is sent on. *)
Theorem C66_truncated_refuted do_ nets r : acceptable r -> (4096 < N.of_nat (length (p_body r)))%N ->
  exists f, ODoHproxyHandler do_ nets r = ([f], relay (do_ f)) /\ N.of_nat (length (f_body f)) = 4096%N /\ f_body f <> p_body r.
Proof. exact (handler_truncated do_ nets r). Qed.
Print Assumptions C66_truncated_refuted.

(** The proxy is served in the modes dual and proxy, a target in the modes dual, target and none given; an unknown mode serves nothing. *)
Theorem C66_modes mode path :
  (route (handlers mode) path = Some HProxy <-> path = "/proxy" /\ (mode = "dual" \/ mode = "proxy")) /\
  (route (handlers mode) path = Some HQuery <-> path = "/dns-query" /\ (mode = "dual" \/ mode = "target" \/ mode = "")) /\
  (route (handlers mode) path = Some HConfig <-> path = "/.well-known/odohconfigs" /\ (mode = "dual" \/ mode = "target" \/ mode = "")).
Proof. exact (modes mode path). Qed.
Print Assumptions C66_modes.

Definition C66_target (f : fwd) : option tresp := Some (TResp 200 "application/oblivious-dns-message" (f_body f) false).
Definition C66_req host path := PReq [192; 0; 2; 1]%N "POST" "application/oblivious-dns-message" host path [1; 2; 3]%N false.
Example C66_ex_forward : ODoHproxyHandler C66_target [] (C66_req "odoh.example.net" "/dns-query") =
  ([Fwd "https" "odoh.example.net" "/dns-query" "application/oblivious-dns-message" [1; 2; 3]%N], PBody "application/oblivious-dns-message" [1; 2; 3]%N false).
Proof. vm_compute. reflexivity. Qed.
Example C66_ex_reject : map (fun h => fst (ODoHproxyHandler C66_target [] (C66_req h "/dns-query")))
  ["127.0.0.1"; "localhost"; "[::1]"; "a.example:22"; "u@a.example"; "a..example"; "a.example."; "a.e1"] = repeat [] 8.
Proof. vm_compute. reflexivity. Qed.
Example C66_ex_path : map (fun p => fst (ODoHproxyHandler C66_target [] (C66_req "a.example" p))) [""; "dns"; "/a/../b"] = repeat [] 3.
Proof. vm_compute. reflexivity. Qed.
(** names of internal hosts are acceptable *)
Example C66_ex_internal : fst (ODoHproxyHandler C66_target [] (C66_req "metadata.internal" "/")) <> [].
Proof. vm_compute. discriminate. Qed.
Example C66_ex_acceptable : acceptable (C66_req "a.example" "/dns-query").
Proof. apply acceptable_demo. Qed.
