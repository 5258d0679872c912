(** Who is trusted. *)
From Verif Require Import Base Bytes Net Addr_model Addr_spec Tls_model.
Local Open Scope string_scope.

(** The authorities asked for: those of the file, or those of the system if there is none *)
Definition authorities {CA} (pem : string -> option (list CA)) (ca : string) (p : option (list CA)) : Prop :=
  (ca = "" /\ p = None) \/ (ca <> "" /\ exists l, pem ca = Some l /\ l <> [] /\ p = Some l).
(** The certificate to present: none unless both files are given *)
Definition presents {Cert} (load : string -> string -> option Cert) (crt key : string) (c : option Cert) : Prop :=
  ((crt = "" \/ key = "") /\ c = None) \/ (crt <> "" /\ key <> "" /\ exists x, load crt key = Some x /\ c = Some x).
(** The name a client should check: the one configured, or the host *)
Definition wanted (server host name : string) : Prop := name = if String.eqb server "" then host else server.
