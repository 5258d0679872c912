(** Specification of the listeners. Of the model only the types of requests, events and replies are
    used. *)
From Verif Require Import Base Bytes Dns Cidr_spec Net_spec Modifiers_spec Listener_model.
Open Scope N_scope.

(** *** Access control *)
(** The list of networks lets the address in. *)
Definition allowed (parseAddr : string -> option bytes) (nets : list string) (x : bytes) : Prop :=
  nets = [] \/ exists s a p, In s nets /\ net_text parseAddr s a p /\ x <> [] /\ net_has a p x.

(** *** Replies *)
(** The reply a listener makes up itself: header and question only *)
Definition error_reply (q : msg) (rcode : N) (a : msg) : Prop :=
  m_id a = m_id q /\ m_response a = true /\ m_opcode a = m_opcode q /\ m_rcode a = rcode /\
  m_aa a = false /\ m_tc a = false /\ m_ad a = false /\
  m_question a = firstn 1 (m_question q) /\ m_answer a = [] /\ m_ns a = [] /\ m_extra a = [].
(** The message for the outcome of the resolver *)
Definition outcome (q : msg) (r : result) (a : msg) : Prop :=
  match r with Ans a' => a = a' | Err _ => error_reply q 2 a | Drop => False end.

(** m is a with padding options changed, in an EDNS0 record made for them if there was none. *)
Definition padded (q a m : msg) : Prop :=
  (no_edns0 q /\ m = a) \/
  (~ no_edns0 q /\ exists n, opt_edit (repadded n) a m \/ exists size ttl opts, repadded n [] opts /\ opt_new size ttl opts a m).
(** m is a without padding options. *)
Definition stripped (a m : msg) : Prop :=
  (no_edns0 a /\ m = a) \/ (~ no_edns0 a /\ opt_edit (without (fun o => opt_code o = 12)) a m).
(** The largest UDP response a client accepts *)
Definition limit (q : msg) (n : N) : Prop :=
  (no_edns0 q /\ n = 512) \/
  (exists pre r post, m_extra q = pre ++ r :: post /\ rr_type r = 41 /\ Forall (fun x => rr_type x <> 41) post /\ n = rr_class r).

(** The answer of a resolver is a message padding can be added to. *)
Definition paddable (a : msg) : Prop :=
  opt_wf a /\ forall r opts, In r (m_extra a) -> rr_data r = DOPT opts -> padding_typed opts.

(** *** Forwarded addresses *)
(** The last entry of the last header line *)
Definition last_entry (lines : list string) (e : string) : Prop :=
  exists before l, lines = before ++ [l] /\ contains "," e = false /\ (l = e \/ exists x, l = (x ++ String "," e)%string).
Definition loopback (x : bytes) : Prop := val128 x / 2 ^ 24 = 65535 * 2 ^ 8 + 127 \/ val128 x = 1.
(** The address the proxy forwarded for *)
Definition forwarded (parseIP : string -> bytes) (lines : list string) (x : bytes) : Prop :=
  exists e, last_entry lines e /\ x = parseIP (trim_space e) /\ x <> [] /\ ~ loopback x.

(** What a client of a plain, DoT or DTLS listener gets for the message a *)
Definition delivered (truncate : N -> msg -> msg) (protocol : string) (q a m : msg) : Prop :=
  exists p,
    (In protocol ["dot"; "dtls"]%string -> padded q a p) /\ (~ In protocol ["dot"; "dtls"]%string -> stripped a p) /\
    (In protocol ["udp"; "dtls"]%string -> exists n, limit q n /\ m = truncate n p) /\ (~ In protocol ["udp"; "dtls"]%string -> m = p).

(** *** DoH requests *)
(** The request is well formed and carries these octets. *)
Inductive request (base64dec : string -> option bytes) (r : httpreq) : bytes -> Prop :=
| Req_get s l b : h_method r = "GET"%string -> h_dns r = s :: l -> base64dec s = Some b -> request base64dec r b
| Req_post : h_method r = "POST"%string -> N.of_nat (length (h_body r)) <= 65535 -> h_broken r = false -> request base64dec r (h_body r).
(** Operations that may be repeated: QUERY and NOTIFY *)
Definition repeatable (q : msg) : Prop := m_opcode q = 0 \/ m_opcode q = 4.
(** The request came before the end of the TLS handshake. *)
Definition early (r : httpreq) : Prop := exists n, h_tls r = Some (false, n).
(** The server name of the TLS connection *)
Definition server_name (r : httpreq) (n : string) : Prop := (h_tls r = None /\ n = EmptyString) \/ exists d, h_tls r = Some (d, n).
(** The reply with the message, or an internal error if it cannot be encoded *)
Definition sent (pack : msg -> option bytes) (m : msg) (out : lout) : Prop :=
  (exists b, pack m = Some b /\ out = Body b) \/ (pack m = None /\ out = Status 500).

(** *** DoQ *)
(** The option the query or response must not have *)
Definition keepalive (m : msg) : Prop :=
  exists pre r post opts o, m_extra m = pre ++ r :: post /\ rr_type r = 41 /\ Forall (fun x => rr_type x <> 41) post /\
    rr_data r = DOPT opts /\ In o opts /\ opt_code o = 11.
(** Octets on a stream: a length in two octets and a message *)
Definition framed (p data : bytes) : Prop :=
  exists h l rest, data = h :: l :: p ++ rest /\ N.of_nat (length p) = h * 256 + l.
