(** C54: validation of host names and endpoints. *)
From Verif Require Import Base Hostname_model Hostname_spec Hostname_proofs.
Local Open Scope nat_scope.

Theorem C54_hostname : forall name, validHostname name = true <-> host_ok name.
Proof. exact hostname_iff. Qed.
Print Assumptions C54_hostname.

Theorem C54_endpoint : forall splitHostPort isIP addr, validEndpoint splitHostPort isIP addr = true <->
  exists host port, splitHostPort addr = Some (host, port) /\ port_ok port /\ (isIP host = true \/ host_ok host).
Proof. exact endpoint_iff. Qed.
Print Assumptions C54_endpoint.

(** Labels before the last may be empty, and labels may be longer than 63. *)
Theorem C54_empty_label_refuted : validHostname "a..b" = true /\ dotted ["a"; ""; "b"]%string "a..b".
Proof. exact empty_label_refuted. Qed.
Print Assumptions C54_empty_label_refuted.
Theorem C54_long_label_refuted : exists l, String.length l = 64 /\ dotted [l] l /\ validHostname l = true.
Proof. exact long_label_refuted. Qed.
Print Assumptions C54_long_label_refuted.

Example C54_names : map validHostname ["a-b.example."; "-a.b"; "a_b.c"; "1.2.3"; "1.2.c3"; "."; "a.."]%string = [true; false; false; false; true; false; false].
Proof. reflexivity. Qed.
Example C54_ports : map parse_port ["853"; "65536"; ""; "+1"; "0"]%string = [Some 853%N; None; None; None; Some 0%N].
Proof. reflexivity. Qed.
