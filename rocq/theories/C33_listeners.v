(** C33: what listeners reply. *)
From Verif Require Import Base Bytes Dns Cidr_spec Net_spec Modifiers_spec Listener_model Listener_spec Listener_proofs Listener_proofs2 Listener_proofs3.
Local Open Scope N_scope.

(** Plain, DoT and DTLS: the answer of the resolver, SERVFAIL for its error, the connection closed
    for a drop; queries without a question are ignored. *)
Theorem C33_dns resolve base optlen truncate : (forall d, optlen (PADDING d) = 4 + N.of_nat (length d)) ->
  forall parseAddr, parse_ok parseAddr ->
  forall id protocol nets l src tls q, parseCIDRList parseAddr nets = Some l -> src = [] \/ ip_ok src -> opt_wf q ->
  let ci := Client src "" tls id in (forall a, resolve q ci = Ans a -> paddable a) ->
  let run := listenHandler resolve base optlen truncate id protocol l src tls q in
  (m_question q = [] -> run = ([], Silent)) /\
  (m_question q <> [] -> allowed parseAddr nets src -> resolve q ci = Drop -> run = ([Call q ci], Closed)) /\
  (m_question q <> [] -> allowed parseAddr nets src -> resolve q ci <> Drop ->
     exists a m, outcome q (resolve q ci) a /\ delivered truncate protocol q a m /\ run = ([Call q ci], Written m)).
Proof. exact (dns_reply resolve base optlen truncate). Qed.
Print Assumptions C33_dns.

(** DoH: the answer, SERVFAIL, or status 403 for a drop *)
Theorem C33_doh resolve base optlen unpack pack base64dec splitHost parseIP : (forall d, optlen (PADDING d) = 4 + N.of_nat (length d)) ->
  forall parseAddr, parse_ok parseAddr -> (forall s, parseIP s = [] \/ ip_ok (parseIP s)) -> parseIP EmptyString = [] ->
  forall id nets l proxy r b q name, parseCIDRList parseAddr nets = Some l ->
  let address := extractClientAddress splitHost parseIP proxy r in
  let run := dohHandler resolve base optlen unpack pack base64dec splitHost parseIP (DohOpt id l proxy) r in
  request base64dec r b -> unpack b = Some q -> m_question q <> [] -> (early r -> repeatable q) -> address <> [] -> opt_wf q ->
  allowed parseAddr nets address -> server_name r name ->
  let ci := Client address (h_path r) name id in (forall a, resolve q ci = Ans a -> paddable a) ->
  (resolve q ci = Drop -> run = ([Call q ci], Status 403)) /\
  (resolve q ci <> Drop -> exists a m out, outcome q (resolve q ci) a /\ padded q a m /\ sent pack m out /\ run = ([Call q ci], out)).
Proof. exact (doh_reply resolve base optlen unpack pack base64dec splitHost parseIP). Qed.
Print Assumptions C33_doh.

(** Other DoH requests never reach the resolver. *)
Theorem C33_doh_invalid resolve base optlen unpack pack base64dec splitHost parseIP o r :
  let run := dohHandler resolve base optlen unpack pack base64dec splitHost parseIP o r in
  ((forall b, ~ request base64dec r b) -> exists n, run = ([], Status n) /\ In n [400; 405; 413]) /\
  (forall b, request base64dec r b ->
    ((unpack b = None \/ exists q, unpack b = Some q /\ m_question q = []) -> run = ([], Status 400)) /\
    (forall q, unpack b = Some q -> m_question q <> [] -> early r -> ~ repeatable q -> run = ([], Status 425)) /\
    (forall q, unpack b = Some q -> m_question q <> [] -> (early r -> repeatable q) -> extractClientAddress splitHost parseIP (do_proxy o) r = [] -> run = ([], Status 400))).
Proof. exact (doh_invalid resolve base optlen unpack pack base64dec splitHost parseIP o r). Qed.
Print Assumptions C33_doh_invalid.

(** DoQ: the answer with its length in front or SERVFAIL; a drop makes the process crash. *)
Theorem C33_doq resolve unpack pack : (forall b q, unpack b = Some q -> opt_wf q) ->
  forall ci hs data b q, framed b data -> unpack b = Some q -> m_question q <> [] -> ~ keepalive q -> (repeatable q \/ hs <> HsNever) ->
  let run := handleStream resolve unpack pack ci hs data in
  exists w, (repeatable q -> w = []) /\ (~ repeatable q -> w = [Handshake]) /\
  (resolve q ci = Drop -> run = (w ++ [Call q ci], Crash)) /\
  (resolve q ci <> Drop -> exists a, outcome q (resolve q ci) a /\
     (forall p, pack a = Some p -> N.of_nat (length p) < 65536 -> exists out, framed p out /\ length out = (2 + length p)%nat /\ run = (w ++ [Call q ci], Body out)) /\
     (pack a = None -> run = (w ++ [Call q ci], Silent))).
Proof. exact (doq_reply resolve unpack pack). Qed.
Print Assumptions C33_doq.

(** DoQ streams without a query to be served are closed without reply. *)
Theorem C33_doq_invalid resolve unpack pack : (forall b q, unpack b = Some q -> opt_wf q) ->
  forall ci hs data,
  (forall b, framed b data -> match unpack b with None => True | Some q => m_question q = [] \/ keepalive q \/ (~ repeatable q /\ hs = HsNever) end) ->
  handleStream resolve unpack pack ci hs data = ([], Silent).
Proof. exact (doq_noquery resolve unpack pack). Qed.
Print Assumptions C33_doq_invalid.

(** ODoH target *)
Theorem C33_odoh resolve base optlen unpack pack base64dec splitHost parseIP decrypt encrypt id doh nets r b q d name :
  oblivious r -> h_broken r = false -> N.of_nat (length (h_body r)) <= 4096 ->
  decrypt (h_body r) = Some b -> unpack b = Some q -> m_question q <> [] -> h_tls r = Some (d, name) ->
  let ci := Client [] "" name id in
  let run := ODoHqueryHandler resolve base optlen unpack pack base64dec splitHost parseIP decrypt encrypt id doh nets r in
  (resolve q ci = Drop -> run = ([Call q ci], Status 403)) /\
  (resolve q ci <> Drop -> exists a, outcome q (resolve q ci) a /\
     (forall p e, pack a = Some p -> encrypt p = Some e -> run = ([Call q ci], Body e)) /\
     (pack a = None -> run = ([Call q ci], Silent)) /\
     (forall p, pack a = Some p -> encrypt p = None -> run = ([Call q ci], Status 400))).
Proof. exact (odoh_reply resolve base optlen unpack pack base64dec splitHost parseIP decrypt encrypt id doh nets r b q d name). Qed.
Print Assumptions C33_odoh.

Theorem C33_odoh_invalid resolve base optlen unpack pack base64dec splitHost parseIP decrypt encrypt id doh nets r : oblivious r ->
  (forall b q, decrypt (firstn (N.to_nat 4096) (h_body r)) = Some b -> unpack b = Some q -> m_question q = []) ->
  ODoHqueryHandler resolve base optlen unpack pack base64dec splitHost parseIP decrypt encrypt id doh nets r = ([], Status 400).
Proof. exact (odoh_invalid resolve base optlen unpack pack base64dec splitHost parseIP decrypt encrypt id doh nets r). Qed.
Print Assumptions C33_odoh_invalid.

(** Plain DoH at an ODoH target: served as by a DoH listener if that is allowed, otherwise refused without asking the resolver *)
Theorem C33_odoh_plain resolve base optlen unpack pack base64dec splitHost parseIP decrypt encrypt id doh nets r : ~ oblivious r ->
  let handler := ODoHqueryHandler resolve base optlen unpack pack base64dec splitHost parseIP decrypt encrypt id doh nets r in
  (doh = false \/ h_method r = "POST"%string /\ h_ctype r <> "application/dns-message"%string -> handler = ([], Status 405)) /\
  (doh = true -> h_method r <> "POST"%string \/ h_ctype r = "application/dns-message"%string ->
   handler = dohHandler resolve base optlen unpack pack base64dec splitHost parseIP (DohOpt id nets None) r).
Proof. exact (odoh_plain resolve base optlen unpack pack base64dec splitHost parseIP decrypt encrypt id doh nets r). Qed.
Print Assumptions C33_odoh_plain.

(** The connection behind the bootstrap resolver: an answer is queued, an error or a drop fails the
    write ([Status 0]). *)
Theorem C33_bootstrap resolve unpack p :
  (unpack p = None -> packetConn_Write resolve unpack p = ([], Status 0)) /\
  (forall q, unpack p = Some q -> let ci := Client [127;0;0;1] "" "" "" in
     (forall a, resolve q ci = Ans a -> packetConn_Write resolve unpack p = ([Call q ci], Written a)) /\
     ((forall a, resolve q ci <> Ans a) -> packetConn_Write resolve unpack p = ([Call q ci], Status 0))).
Proof. exact (packet_reply resolve unpack p). Qed.
Print Assumptions C33_bootstrap.

(** "No outcome crashes the process" fails: *)
Theorem C33_doq_drop_refuted : exists resolve unpack pack ci hs data, snd (handleStream resolve unpack pack ci hs data) = Crash.
Proof. exact doq_crash. Qed.
Print Assumptions C33_doq_drop_refuted.

(** Examples *)
Definition C33_q : msg := set_extra [new_opt 1232 false [PADDING [1]]] (set_question [Q "a." 1 1] empty_msg).
Definition C33_a : msg := set_extra [new_opt 4096 false [PADDING [1]; EDE 1 "x"]] (set_reply empty_msg C33_q).
Definition C33_tr (n : N) (m : msg) : msg := set_rcode_field n m.
Definition C33_run (protocol : string) (res : result) : list event * lout :=
  listenHandler (fun _ _ => res) (fun _ => 450) (fun o => match o with PADDING d => 4 + N.of_nat (length d) | _ => 6 end) C33_tr "x" protocol [] [1;2;3;4] "" C33_q.
Example C33_udp : snd (C33_run "udp" (Ans C33_a)) = Written (set_rcode_field 1232 (set_extra [new_opt 4096 false [EDE 1 "x"]] (set_reply empty_msg C33_q))).
Proof. vm_compute. reflexivity. Qed.
Example C33_dot : snd (C33_run "dot" (Ans C33_a)) = Written (set_extra [new_opt 4096 false [PADDING [0;0;0;0;0;0;0;0]; EDE 1 "x"]] (set_reply empty_msg C33_q)).
Proof. vm_compute. reflexivity. Qed.
Example C33_err : snd (C33_run "tcp" (Err "x")) = Written (servfail C33_q).
Proof. vm_compute. reflexivity. Qed.
Example C33_drop : snd (C33_run "tcp" Drop) = Closed.
Proof. vm_compute. reflexivity. Qed.
Example C33_hyps : paddable C33_a /\ opt_wf C33_q /\ m_question C33_q <> [] /\ ~ keepalive C33_q.
Proof.
  split; [split; [repeat constructor; eexists; reflexivity|]|split; [repeat constructor; eexists; reflexivity|split; [discriminate|]]].
  - intros r o [<-|[]] [= <-]. constructor; [intros _; eexists; reflexivity|]. constructor; [discriminate|constructor].
  - intros (pre & r & post & opts & o & E & T & F & D & I & C). destruct pre as [|p [|p' pre]]; try discriminate E. injection E as <- <-.
    injection D as <-. destruct I as [<-|[]]. discriminate C.
Qed.
Example C33_doq_ex : handleStream (fun _ _ => Ans C33_a) (fun _ => Some C33_q) (fun _ => Some [1;2;3]) (Client [] "" "" "") HsDone [0;1;7;9] = ([Call C33_q (Client [] "" "" "")], Body [0;3;1;2;3]).
Proof. vm_compute. reflexivity. Qed.
(** A plain request at an ODoH target *)
Example C33_odoh_get : exists r, ~ oblivious r /\ h_method r = "GET"%string.
Proof. exists (HttpReq "GET" [] "" [] false None "10.9.8.7:9" [] "/dns-query"). split; [intros [[=] _]|reflexivity]. Qed.
