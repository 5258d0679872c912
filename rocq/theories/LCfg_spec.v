(** What the settings of a listener are to mean: when it is refused, where it listens, whom it serves and whom it asks. Of the model the
    types, [instantiateListener], [Start], [tls_of] and [serve] are used. *)
From Verif Require Import Base Bytes Dns Net Cidr_spec Net_spec Modifiers_spec Addr_spec XDial_model LSock_model LSock_spec Tls_spec Listener_model Listener_spec.
From Verif Require Tls_model Odoh_model.
From Verif Require Import LCfg_model.
Local Open Scope string_scope.

Section S.
Context {R CA Cert Key : Type}.
Variable w : world R CA Cert Key.
Definition Built := listener R CA Cert Key.
Definition started (id : string) (l : settings) (rnd : option bytes) (p : pending R CA Cert Key) : Prop := instantiateListener R CA Cert Key w id l rnd = Some p.
(** A listener made for the settings, at the start or when its namespace appears *)
Definition made (id : string) (l : settings) (ln : Built) : Prop :=
  exists rnd p rnd', started id l rnd p /\ p_build R CA Cert Key p rnd' = Some ln.

(** *** Settings *)
Definition is (l : settings) (names : list string) : Prop := In (l_protocol l) names.
Definition network (s : string) : Prop := exists a p, net_text (w_addr w) s a p.
(** All but plain DNS and DoH without TLS *)
Definition secured (l : settings) : Prop := is l ["admin"; "dot"; "dtls"; "doq"; "odoh"] \/ (is l ["doh"] /\ l_notls l = false).
Definition files (l : settings) (p : option (list CA)) (x : option Cert) : Prop :=
  authorities (w_pem w) (l_ca l) p /\ presents (w_load w) (l_crt l) (l_key l) x /\ (l_mutual l = true -> l_ca l <> "").
(** A namespace given by name, not by path *)
Definition named (l : settings) : Prop := exists c s, l_netns l = String c s /\ c <> "/"%char.
(** The key of the seed, or of random octets *)
Definition has_key (l : settings) (rnd : option bytes) (k : Key) : Prop :=
  exists o, (l_seed l <> "" -> w_hex w (l_seed l) = Some o) /\ (l_seed l = "" -> rnd = Some o) /\ w_pair w o = Some k.
Definition makeable (l : settings) (rnd : option bytes) : Prop :=
  (is l ["admin"; "doh"] -> In (l_transport l) [""; "tcp"; "quic"]) /\ (is l ["odoh"] -> exists k, has_key l rnd k).
Definition acceptable (l : settings) : Prop :=
  is l ["tcp"; "udp"; "admin"; "dot"; "dtls"; "doh"; "doq"; "odoh"] /\ (~ is l ["admin"] -> w_resolver w (l_resolver l) <> None) /\
  Forall network (l_allowed l) /\ (l_ipv l = 0 \/ l_ipv l = 4 \/ l_ipv l = 6)%Z /\ (l_netns l = "" \/ l_xsocket l = "") /\
  (secured l -> exists p x, files l p x) /\
  (is l ["doh"] -> (l_notls l = true -> l_transport l <> "quic") /\ (l_proxy l <> "" -> network (l_proxy l))).

(** *** Where *)
Definition default_port (l : settings) (d : string) : Prop :=
  (is l ["tcp"; "udp"] /\ d = "53") \/ (is l ["dot"; "dtls"] /\ d = "853") \/ (is l ["doq"] /\ d = "8853") \/ (is l ["odoh"] /\ d = "443") \/
  (is l ["doh"] /\ l_transport l <> "quic" /\ d = "443") \/ (is l ["doh"] /\ l_transport l = "quic" /\ d = "1443").
(** The address with the port of the protocol if it has none; the admin service has no such port *)
Definition listens (l : settings) (a : string) : Prop :=
  (is l ["admin"] /\ a = l_address l) \/
  (without "/" (l_address l) /\ without "{" (l_address l) /\
   ((exists d, default_port l d /\ without ":" (l_address l) /\ a = l_address l ++ ":" ++ d) \/
    (~ is l ["admin"] /\ exists h p, hostport (l_address l) h p /\ a = l_address l))).
(** ip-version, netns, xsocket, fwmark, bind-if, transport *)
Definition asked (l : settings) (a : string) : lconf :=
  LConf a (Z.to_N (l_ipv l)) (l_netns l) (l_xsocket l) (SockOpts (l_mark l) (l_bindif l)) (String.eqb (l_transport l) "quic").

(** *** Who *)
Definition served (l : settings) (x : bytes) : Prop := allowed (w_addr w) (l_allowed l) x.
Variable b : lib R Key.
(** Replies over plain DNS, DoT and DTLS: padded if they are encrypted; no larger than the client accepts over DTLS and over UDP unless
    there is an ip-version *)
Definition gets (l : settings) (q a m : msg) : Prop :=
  exists p, (is l ["dot"; "dtls"] -> padded q a p) /\ (is l ["tcp"; "udp"] -> stripped a p) /\
    (is l ["dtls"] \/ (is l ["udp"] /\ l_ipv l = 0%Z) -> exists n, limit q n /\ m = b_truncate R Key b n p) /\
    (is l ["tcp"; "dot"] \/ (is l ["udp"] /\ l_ipv l <> 0%Z) -> m = p).

(** trusted-proxy *)
Definition peer (h : httpreq) : bytes := w_ip w (b_host R Key b (h_remote h)).
Definition by_proxy (l : settings) (h : httpreq) (x : bytes) : Prop :=
  l_proxy l <> "" /\ peer h <> [] /\ (exists a p, net_text (w_addr w) (l_proxy l) a p /\ net_has a p (peer h)) /\ forwarded (w_ip w) (h_xff h) x.
Definition client_address (l : settings) (h : httpreq) (x : bytes) : Prop := by_proxy l h x \/ ((forall y, ~ by_proxy l h y) /\ x = peer h).

(** What an HTTP request gets from a client with the address x *)
Definition http_reply (l : settings) (id : string) (r : R) (h : httpreq) (x : bytes) (out : run) : Prop :=
  ((forall o, ~ request (b_base64 R Key b) h o) -> exists n, out = ([], Status n) /\ In n [400; 405; 413]%N) /\
  forall o, request (b_base64 R Key b) h o ->
  (b_unpack R Key b o = None -> out = ([], Status 400)) /\
  forall q, b_unpack R Key b o = Some q ->
  (m_question q = [] -> out = ([], Status 400)) /\
  (m_question q <> [] -> early h -> ~ repeatable q -> out = ([], Status 425)) /\
  (m_question q <> [] -> (early h -> repeatable q) ->
    (x = [] -> out = ([], Status 400)) /\
    (x <> [] -> ~ served l x -> exists a m o', error_reply q 5 a /\ padded q a m /\ sent (b_pack R Key b) m o' /\ out = ([], o')) /\
    (x <> [] -> served l x -> forall name, server_name h name -> let ci := Client x (h_path h) name id in
       (b_ask R Key b r q ci = Drop -> out = ([Call q ci], Status 403)) /\
       (b_ask R Key b r q ci <> Drop -> (forall a, b_ask R Key b r q ci = Ans a -> paddable a) ->
          exists a m o', outcome q (b_ask R Key b r q ci) a /\ padded q a m /\ sent (b_pack R Key b) m o' /\ out = ([Call q ci], o')))).

(** What an oblivious request to the target gets, whoever sends it: nothing is known of the client but the name of the server asked for *)
Definition oblivious (h : httpreq) : Prop := h_method h = "POST" /\ h_ctype h = "application/oblivious-dns-message" /\ h_broken h = false /\ (N.of_nat (length (h_body h)) <= 4096)%N.
Definition target_reply (id : string) (r : R) (k : Key) (h : httpreq) (out : run) : Prop :=
  (forall o q, b_decrypt R Key b k (h_body h) = Some o -> b_unpack R Key b o = Some q -> m_question q <> [] -> forall d name, h_tls h = Some (d, name) ->
    let ci := Client [] "" name id in
    (b_ask R Key b r q ci = Drop -> out = ([Call q ci], Status 403)) /\
    (b_ask R Key b r q ci <> Drop -> exists a, outcome q (b_ask R Key b r q ci) a /\
       (forall p e, b_pack R Key b a = Some p -> b_encrypt R Key b k (h_body h) p = Some e -> out = ([Call q ci], Body e)) /\
       (b_pack R Key b a = None -> out = ([Call q ci], Silent)) /\
       (forall p, b_pack R Key b a = Some p -> b_encrypt R Key b k (h_body h) p = None -> out = ([Call q ci], Status 400)))) /\
  ((forall o q, b_decrypt R Key b k (h_body h) = Some o -> b_unpack R Key b o = Some q -> m_question q = []) -> out = ([], Status 400)).
(** The request to an ODoH proxy *)
Definition proxied (h : httpreq) (host path : string) : Odoh_model.preq := Odoh_model.PReq (peer h) (h_method h) (h_ctype h) host path (h_body h) (h_broken h).

(** What a stream of DoQ gets: nothing without a query to be served, else the outcome of the resolver; a drop is C33's crash *)
Definition stream_reply (r : R) (ci : client) (s : handshake * bytes) (out : run) : Prop :=
  ((forall p, framed p (snd s) -> match b_unpack R Key b p with None => True | Some q => m_question q = [] \/ keepalive q \/ (~ repeatable q /\ fst s = HsNever) end) ->
   out = ([], Silent)) /\
  (forall p q, framed p (snd s) -> b_unpack R Key b p = Some q -> m_question q <> [] -> ~ keepalive q -> repeatable q \/ fst s <> HsNever ->
  exists hs, (repeatable q -> hs = []) /\ (~ repeatable q -> hs = [Handshake]) /\
  (b_ask R Key b r q ci = Drop -> out = ((hs ++ [Call q ci])%list, Crash)) /\
  (b_ask R Key b r q ci <> Drop -> exists a, outcome q (b_ask R Key b r q ci) a /\
     (forall p', b_pack R Key b a = Some p' -> (N.of_nat (length p') < 65536)%N -> exists o, framed p' o /\ length o = (2 + length p')%nat /\ out = ((hs ++ [Call q ci])%list, Body o)) /\
     (b_pack R Key b a = None -> out = ((hs ++ [Call q ci])%list, Silent)))).

(** The functions of the libraries *)
Record sane : Prop := Sane {
  sane_addr : parse_ok (w_addr w);
  sane_ip : forall s, w_ip w s = [] \/ ip_ok (w_ip w s);
  sane_none : w_ip w "" = [];
  sane_pad : forall d, b_optlen R Key b (PADDING d) = (4 + N.of_nat (length d))%N;
  sane_unpack : forall o q, b_unpack R Key b o = Some q -> opt_wf q }.
End S.
