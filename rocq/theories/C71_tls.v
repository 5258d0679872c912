(** C71: who is trusted by TLS and DTLS listeners and clients. *)
From Verif Require Import Base Bytes Net Addr_model Addr_spec Tls_model Tls_spec Tls_proofs.
Local Open Scope string_scope.

(** *** Servers *)
(** A configuration is what was asked for; a listener with client authentication needs authorities; files that cannot be used are errors. *)
Theorem C71_server CA Cert pem load ca crt key m c : TLSServerConfig CA Cert pem load ca crt key m = Some c <->
  exists p x, authorities pem ca p /\ presents load crt key x /\ (m = true -> ca <> "") /\ c = Conf _ _ m p None x "" 771.
Proof. exact (server_iff CA Cert pem load ca crt key m c). Qed.
Print Assumptions C71_server.

Theorem C71_dtls_server CA Cert pem load ca crt key m c : DTLSServerConfig CA Cert pem load ca crt key m = Some c <->
  exists p x, authorities pem ca p /\ presents load crt key x /\ (m = true -> ca <> "") /\ c = Conf _ _ m p None x "" 0.
Proof. exact (dserver_iff CA Cert pem load ca crt key m c). Qed.
Print Assumptions C71_dtls_server.

(** With client authentication, a listener of any protocol that uses TLS accepts exactly the clients with a certificate of one of the
    authorities of the file; those of the system do not count. *)
Theorem C71_mutual CA Cert pem load verify p l c client : listener_conf CA Cert pem load p l = Some (Some c) -> l_mutual l = true ->
  (server_accepts CA Cert verify c client = true <-> (exists own, presents load (l_crt l) (l_key l) (Some own)) /\
     exists x cas, client = Some x /\ pem (l_ca l) = Some cas /\ cas <> [] /\ verify x (Some cas) = true).
Proof. exact (mutual CA Cert pem load verify p l c client). Qed.
Print Assumptions C71_mutual.

(** Without it, all clients, if the listener has a certificate. *)
Theorem C71_open CA Cert pem load verify p l c client : listener_conf CA Cert pem load p l = Some (Some c) -> l_mutual l = false ->
  (server_accepts CA Cert verify c client = true <-> exists own, presents load (l_crt l) (l_key l) (Some own)).
Proof. exact (open_ CA Cert pem load verify p l c client). Qed.
Print Assumptions C71_open.

(** Only DoH listeners over TCP that ask for it go without TLS … *)
Theorem C71_plain CA Cert pem load p l : listener_conf CA Cert pem load p l = Some None -> p = LDoh /\ l_notls l = true /\ l_quic l = false.
Proof. exact (tls_only CA Cert pem load p l). Qed.
Print Assumptions C71_plain.

(** … and then client authentication is dropped without an error. *)
Theorem C71_no_tls_refuted CA Cert pem load : exists l, l_mutual l = true /\ l_ca l <> "" /\ listener_conf CA Cert pem load LDoh l = Some None.
Proof. exact (notls_mutual CA Cert pem load). Qed.
Print Assumptions C71_no_tls_refuted.

(** *** Clients *)
Theorem C71_client CA Cert pem load ca crt key name c : TLSClientConfig CA Cert pem load ca crt key name = Some c <->
  exists p x, authorities pem ca p /\ presents load crt key x /\ c = Conf _ _ false None p x name 771.
Proof. exact (client_iff CA Cert pem load ca crt key name c). Qed.
Print Assumptions C71_client.

Theorem C71_dtls_config CA Cert pem load ca crt key c : DTLSClientConfig CA Cert pem load ca crt key = Some c <->
  exists p x, authorities pem ca p /\ presents load crt key x /\ c = Conf _ _ false None p x "" 0.
Proof. exact (dclient_iff CA Cert pem load ca crt key c). Qed.
Print Assumptions C71_dtls_config.

(** Whatever the protocol and the options: a server is accepted only if its certificate is of one of the authorities asked for. *)
Theorem C71_trust CA Cert pem load verify valid_for parseIP showIP lookup urlHost p r c cert :
  client_conf CA Cert pem load parseIP showIP lookup urlHost p r = Some c -> client_accepts CA Cert parseIP verify valid_for p c cert = true ->
  exists q, authorities pem (r_ca r) q /\ verify cert q = true.
Proof. exact (trust CA Cert pem load verify valid_for parseIP showIP lookup urlHost p r c cert). Qed.
Print Assumptions C71_trust.

(** All but DTLS: exactly those are accepted that are also for the name below. *)
Theorem C71_accepts CA Cert pem load verify valid_for parseIP showIP lookup urlHost p r c cert n :
  client_conf CA Cert pem load parseIP showIP lookup urlHost p r = Some c -> p <> DTLS -> t_name CA Cert c = n -> n <> "" ->
  (client_accepts CA Cert parseIP verify valid_for p c cert = true <->
     exists q, authorities pem (r_ca r) q /\ verify cert q = true /\ valid_for cert n = true).
Proof. exact (accepts_iff CA Cert pem load verify valid_for parseIP showIP lookup urlHost p r c cert n). Qed.
Print Assumptions C71_accepts.

(** DoH over TCP: the name configured, or the host. *)
Theorem C71_doh_name CA Cert pem load parseIP showIP lookup urlHost r c h :
  client_conf CA Cert pem load parseIP showIP lookup urlHost DoH r = Some c -> urlHost (r_address r) = Some h ->
  wanted (r_server r) h (t_name CA Cert c).
Proof. exact (name_doh CA Cert pem load parseIP showIP lookup urlHost r c h). Qed.
Print Assumptions C71_doh_name.

(** DoH over QUIC and DoQ: the host; a name configured is not looked at. *)
Theorem C71_dohquic_name CA Cert pem load parseIP showIP lookup urlHost r c h :
  client_conf CA Cert pem load parseIP showIP lookup urlHost DoHQuic r = Some c -> urlHost (r_address r) = Some h -> t_name CA Cert c = h.
Proof. exact (name_dohq CA Cert pem load parseIP showIP lookup urlHost r c h). Qed.
Print Assumptions C71_dohquic_name.

Theorem C71_doq_name CA Cert pem load parseIP showIP lookup urlHost r c h po :
  client_conf CA Cert pem load parseIP showIP lookup urlHost DoQ r = Some c -> hostport (r_address r) h po -> t_name CA Cert c = h.
Proof. exact (name_doq CA Cert pem load parseIP showIP lookup urlHost r c h po). Qed.
Print Assumptions C71_doq_name.

(** DoT: the host if there is a bootstrap address; else the name configured; else the host, except that a host that is looked up is
    replaced by its address, and that is what the certificate has to be for. *)
Theorem C71_dot_name CA Cert pem load parseIP showIP lookup urlHost r c h po :
  client_conf CA Cert pem load parseIP showIP lookup urlHost DoT r = Some c -> hostport (r_address r) h po -> h <> "" ->
  (r_bootstrap r <> "" -> t_name CA Cert c = h) /\
  (r_bootstrap r = "" -> r_server r <> "" -> t_name CA Cert c = r_server r) /\
  (r_bootstrap r = "" -> r_server r = "" -> r_dialer r = true \/ parseIP h <> [] \/ lookup h = [] -> t_name CA Cert c = h) /\
  (r_bootstrap r = "" -> r_server r = "" -> r_dialer r = false -> parseIP h = [] ->
     forall ip l, lookup h = ip :: l -> without "[" (showIP ip) -> without "]" (showIP ip) -> t_name CA Cert c = showIP ip).
Proof. exact (name_dot CA Cert pem load parseIP showIP lookup urlHost r c h po). Qed.
Print Assumptions C71_dot_name.

(** DTLS: the host if there is a bootstrap address and the host is not an address; else no name at all. *)
Theorem C71_dtls_accepts CA Cert pem load verify valid_for parseIP showIP lookup urlHost r c cert h po :
  client_conf CA Cert pem load parseIP showIP lookup urlHost DTLS r = Some c -> hostport (r_address r) h po ->
  (client_accepts CA Cert parseIP verify valid_for DTLS c cert = true <->
     exists q, authorities pem (r_ca r) q /\ verify cert q = true /\
       (r_bootstrap r <> "" -> h <> "" -> parseIP h = [] -> valid_for cert h = true)).
Proof. exact (accepts_dtls CA Cert pem load verify valid_for parseIP showIP lookup urlHost r c cert h po). Qed.
Print Assumptions C71_dtls_accepts.

(** TLS 1.2 at least. *)
Theorem C71_version CA Cert pem load parseIP showIP lookup urlHost p r c :
  client_conf CA Cert pem load parseIP showIP lookup urlHost p r = Some c -> p <> DTLS -> t_min CA Cert c = 771%N.
Proof. exact (versions CA Cert pem load parseIP showIP lookup urlHost p r c). Qed.
Print Assumptions C71_version.

(** *** Examples. Certificates are the list of their names, all by the same authority. *)
Definition ex_pem (f : string) : option (list string) := if String.eqb f "ca.pem" then Some ["Authority"] else if String.eqb f "empty.pem" then Some [] else None.
Definition ex_load (c k : string) : option (list string) := Some [c].
Definition ex_verify (c : list string) (p : option (list string)) : bool := true.
Definition ex_valid (c : list string) (n : string) : bool := existsb (String.eqb n) c.
Definition ex_parse (s : string) : bytes := if String.eqb s "192.0.2.1" then [192; 0; 2; 1]%N else [].
Definition ex_show (b : bytes) : string := "192.0.2.1".
Definition ex_lookup (h : string) : list bytes := [[192; 0; 2; 1]%N].
Definition ex_url (s : string) : option string := Some "dns.example".
Definition ex_accepts (p : cproto) (r : ropt) (cert : list string) : option bool :=
  option_map (fun c => client_accepts string (list string) ex_parse ex_verify ex_valid p c cert)
    (client_conf string (list string) ex_pem ex_load ex_parse ex_show ex_lookup ex_url p r).

(** A DoT client for dns.example: a certificate for that name is refused, and one for the address found by an ordinary lookup is accepted. *)
Theorem C71_dot_refuted : exists r, r_address r = "dns.example:853" /\
  ex_accepts DoT r ["dns.example"] = Some false /\ ex_accepts DoT r ["192.0.2.1"] = Some true.
Proof. exact (ex_intro _ (ROpt "dns.example:853" "" "ca.pem" "" "" "" false) (conj eq_refl (conj eq_refl eq_refl))). Qed.
Print Assumptions C71_dot_refuted.

(** A DTLS client for dns.example: a certificate for another name is accepted. *)
Theorem C71_dtls_refuted : exists r, r_address r = "dns.example:853" /\ ex_accepts DTLS r ["other.example"] = Some true.
Proof. exact (ex_intro _ (ROpt "dns.example:853" "" "ca.pem" "" "" "dns.example" false) (conj eq_refl eq_refl)). Qed.
Print Assumptions C71_dtls_refuted.

(** The name configured for a DoQ client: a certificate for it is refused. *)
Theorem C71_doq_refuted : exists r, r_server r = "name.example" /\ ex_accepts DoQ r ["name.example"] = Some false.
Proof. exact (ex_intro _ (ROpt "dns.example:853" "" "ca.pem" "" "" "name.example" false) (conj eq_refl eq_refl)). Qed.
Print Assumptions C71_doq_refuted.

(** With a bootstrap address DoT clients check the host's name. *)
Example C71_ex_bootstrap : ex_accepts DoT (ROpt "dns.example:853" "192.0.2.1" "ca.pem" "" "" "" false) ["dns.example"] = Some true.
Proof. reflexivity. Qed.
Example C71_ex_doh : ex_accepts DoH (ROpt "https://dns.example/dns-query" "" "ca.pem" "" "" "" false) ["dns.example"] = Some true.
Proof. reflexivity. Qed.
Example C71_ex_mutual : exists c, listener_conf string (list string) ex_pem ex_load LDot (LOpt "ca.pem" "s.crt" "s.key" true false false) = Some (Some c) /\
  server_accepts string (list string) ex_verify c None = false /\ server_accepts string (list string) ex_verify c (Some ["client"]) = true.
Proof. eexists. split; [reflexivity|]. split; reflexivity. Qed.
(** Client authentication without authorities is refused, and so is a file without certificates; a certificate without its key is not. *)
Example C71_ex_refused : TLSServerConfig string (list string) ex_pem ex_load "" "s.crt" "s.key" true = None /\
  TLSServerConfig string (list string) ex_pem ex_load "empty.pem" "s.crt" "s.key" true = None /\
  option_map (t_cert string (list string)) (TLSClientConfig string (list string) ex_pem ex_load "ca.pem" "c.crt" "" "") = Some None.
Proof. repeat split. Qed.
