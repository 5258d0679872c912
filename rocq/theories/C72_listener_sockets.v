(** C72: the socket a listener listens on. *)
From Verif Require Import Base Bytes Net Router_model Addr_model Addr_spec XDial_model XDial_spec LSock_model LSock_spec LSock_proofs Port_spec Port_proofs.
Local Open Scope string_scope.

(** No listener is anywhere but in the namespace, or with the xsocket-server, asked for. *)
Theorem C72_place resolveUDP parseIP p l s : listener_socket resolveUDP parseIP p l = Some s -> at_place l (k_place s).
Proof. exact (place_ok resolveUDP parseIP p l s). Qed.
Print Assumptions C72_place.

(** Other IP versions than 4 and 6, and a namespace together with an xsocket-server, are refused. *)
Theorem C72_refused resolveUDP parseIP p l : ~ valid l -> listener_socket resolveUDP parseIP p l = None.
Proof. exact (invalid_none resolveUDP parseIP p l). Qed.
Print Assumptions C72_refused.

(** Plain listeners have the place, IP version, address and options asked for. *)
Theorem C72_plain resolveUDP parseIP l : valid l ->
  (exists s, listener_socket resolveUDP parseIP PTcp l = Some s /\ plain_sock l Stream s) /\
  (exists s, listener_socket resolveUDP parseIP PUdp l = Some s /\ plain_sock l Dgram s).
Proof. exact (plain_ok resolveUDP parseIP l). Qed.
Print Assumptions C72_plain.

(** DoT listeners too, but the IP version only if there are neither namespaces nor options. *)
Theorem C72_dot resolveUDP parseIP l : valid l -> exists s, listener_socket resolveUDP parseIP PDot l = Some s /\
  at_place l (k_place s) /\ k_type s = Stream /\ k_addr s = Text (c_addr l) /\ same_opts (k_opts s) (c_opts l) /\
  (one_version (k_net s) (c_ipv l) <-> c_ipv l = 0%N \/ (c_netns l = "" /\ c_xsocket l = "" /\ active (c_opts l) = false)).
Proof. exact (dot_ok resolveUDP parseIP l). Qed.
Print Assumptions C72_dot.

(** Listeners for HTTP, and those over QUIC (of which the address is resolved first): all but the IP version. *)
Theorem C72_http resolveUDP parseIP p l : valid l -> p = POdoh \/ ((p = PDoh \/ p = PAdmin) /\ c_quic l = false) ->
  exists s, listener_socket resolveUDP parseIP p l = Some s /\ http_sock l Stream (Text (c_addr l)) s.
Proof. exact (http_ok resolveUDP parseIP p l). Qed.
Print Assumptions C72_http.

Theorem C72_quic resolveUDP parseIP p l : valid l -> p = PDoq \/ ((p = PDoh \/ p = PAdmin) /\ c_quic l = true) ->
  match resolveUDP (c_addr l) with
  | None => listener_socket resolveUDP parseIP p l = None
  | Some (ip, port) => exists s, listener_socket resolveUDP parseIP p l = Some s /\ http_sock l Dgram (Udp ip port) s
  end.
Proof. exact (quic_ok resolveUDP parseIP p l). Qed.
Print Assumptions C72_quic.

(** DTLS listeners: place and port; neither IP version nor options, no xsocket-servers, and only hosts that are addresses. *)
Theorem C72_dtls resolveUDP parseIP l h po : valid l -> hostport (c_addr l) h po ->
  ((forall n, ~ whole po n) -> listener_socket resolveUDP parseIP PDtls l = None) /\
  (forall n, whole po n -> (c_xsocket l <> "" -> listener_socket resolveUDP parseIP PDtls l = None) /\
      (c_xsocket l = "" -> exists s, listener_socket resolveUDP parseIP PDtls l = Some s /\ at_place l (k_place s) /\ k_type s = Dgram /\
         one_version (k_net s) 0 /\ k_addr s = Udp (parseIP h) n /\ options (k_opts s) = [])).
Proof. exact (dtls_whole resolveUDP parseIP l h po). Qed.
Print Assumptions C72_dtls.

(** *** Examples *)
Definition ex_udp (a : string) : option (bytes * Z) := Some ([127; 0; 0; 1]%N, 853%Z).
Definition ex_parse (h : string) : bytes := if String.eqb h "127.0.0.1" then [127; 0; 0; 1]%N else [].

(** A DoT listener for IPv6 that is bound to an interface also takes IPv4. *)
Theorem C72_version_refuted : exists l s, c_ipv l = 6%N /\ listener_socket ex_udp ex_parse PDot l = Some s /\ k_net s = "tcp".
Proof. exact (ex_intro _ (LConf ":853" 6 "" "" (SockOpts 0 "eth0") false) (ex_intro _ _ (conj eq_refl (conj eq_refl eq_refl)))). Qed.
Print Assumptions C72_version_refuted.

(** A DTLS listener for localhost listens on all addresses, … *)
Theorem C72_dtls_address_refuted : exists l s, c_addr l = "localhost:853" /\ listener_socket ex_udp ex_parse PDtls l = Some s /\ k_addr s = Udp [] 853.
Proof. exact (ex_intro _ (LConf "localhost:853" 0 "" "" (SockOpts 0 "") false) (ex_intro _ _ (conj eq_refl (conj eq_refl eq_refl)))). Qed.
Print Assumptions C72_dtls_address_refuted.

(** … and one for an interface on all interfaces. *)
Theorem C72_dtls_options_refuted : exists l s, o_bind (c_opts l) = "eth0" /\ listener_socket ex_udp ex_parse PDtls l = Some s /\ o_bind (k_opts s) = "".
Proof. exact (ex_intro _ (LConf "127.0.0.1:853" 0 "" "" (SockOpts 0 "eth0") false) (ex_intro _ _ (conj eq_refl (conj eq_refl eq_refl)))). Qed.
Print Assumptions C72_dtls_options_refuted.

Example C72_ex_plain : listener_socket ex_udp ex_parse PUdp (LConf "10.0.0.1:53" 4 "blue" "" (SockOpts 5 "") false) =
  Some (Sock (InNs "blue") Dgram "udp4" (Text "10.0.0.1:53") (SockOpts 5 "")).
Proof. reflexivity. Qed.
Example C72_ex_dot : listener_socket ex_udp ex_parse PDot (LConf ":853" 6 "" "" (SockOpts 0 "") false) = Some (Sock Here Stream "tcp6" (Text ":853") (SockOpts 0 "")).
Proof. reflexivity. Qed.
Example C72_ex_quic : listener_socket ex_udp ex_parse PDoh (LConf "localhost:443" 0 "" "/run/x.sock" (SockOpts 0 "") true) =
  Some (Sock (XSock "/run/x.sock") Dgram "udp" (Udp [127; 0; 0; 1]%N 853) (SockOpts 0 "")).
Proof. reflexivity. Qed.
Example C72_ex_refused : listener_socket ex_udp ex_parse PUdp (LConf ":53" 5 "" "" (SockOpts 0 "") false) = None /\
  listener_socket ex_udp ex_parse PUdp (LConf ":53" 4 "blue" "/run/x.sock" (SockOpts 0 "") false) = None.
Proof. split; reflexivity. Qed.
Example C72_ex_valid : valid (LConf ":853" 6 "blue" "" (SockOpts 0 "eth0") false).
Proof. split; [auto|right; reflexivity]. Qed.
