(** C50: early data carries only operations that may be repeated (dohclient.go, odohclient.go,
    doqclient.go; dohlistener.go, doqlistener.go). *)
From Verif Require Import Base Bytes Dns Modifiers_model Modifiers_spec Listener_model Listener_spec Listener_proofs2 Listener_proofs3 Client_model Client_spec Client_proofs Client_proofs2.
Local Open Scope N_scope.

(** *** Clients *)
(** The HTTP method that allows early data is used only for QUERY and NOTIFY, and only if
    configured. *)
Theorem C50_doh_client base optlen unpack pack base64 expand http o q req :
  In req (fst (doh_resolve base optlen unpack pack base64 expand http o q)) -> hq_method req = MethodGet0RTT ->
  dc_0rtt o = true /\ dc_transport o = "quic"%string /\ dc_method o = "GET"%string /\ repeatable q.
Proof. exact (doh_early base optlen unpack pack base64 expand http o q req). Qed.
Print Assumptions C50_doh_client.

Theorem C50_odoh_client unpack pack base64 expand http encrypt decrypt config with_target o q req :
  In req (fst (odoh_resolve unpack pack base64 expand http encrypt decrypt config with_target o q)) -> hq_method req = MethodGet0RTT ->
  dc_0rtt o = true /\ dc_transport o = "quic"%string /\ dc_method o = "GET"%string /\ repeatable q.
Proof. exact (odoh_early unpack pack base64 expand http encrypt decrypt config with_target o q req). Qed.
Print Assumptions C50_odoh_client.

(** Configuring it requires QUIC, a template for GET, and GET. *)
Theorem C50_options has_dns o o' : newDoHClient has_dns o = Some o' ->
  dc_0rtt o' = dc_0rtt o /\ dc_transport o' = dc_transport o /\ (dc_method o' = dc_method o \/ dc_method o = EmptyString) /\ In (dc_method o') ["GET"; "POST"]%string /\
  (dc_0rtt o = true -> dc_transport o = "quic"%string /\ has_dns = true /\ dc_method o' = "GET"%string).
Proof. exact (doh_options has_dns o o'). Qed.
Print Assumptions C50_options.
(** Which options are taken. The method is what was configured; otherwise POST, or GET with 0-RTT. *)
Theorem C50_method has_dns o : let zero := dc_0rtt o in
  (newDoHClient has_dns o <> None <->
   In (dc_transport o) [""; "tcp"; "quic"]%string /\ In (dc_method o) [""; "GET"; "POST"]%string /\
   (zero = true -> dc_transport o = "quic"%string /\ has_dns = true /\ dc_method o <> "POST"%string)) /\
  forall o', newDoHClient has_dns o = Some o' ->
   (dc_method o = ""%string -> dc_method o' = if zero then "GET" else "POST")%string /\ (dc_method o <> ""%string -> dc_method o' = dc_method o).
Proof. exact (doh_method has_dns o). Qed.
Print Assumptions C50_method.
Example C50_default : newDoHClient false (DohCOpt "" "tcp" false) = Some (DohCOpt "POST" "tcp" false) /\ newDoHClient true (DohCOpt "" "quic" true) = Some (DohCOpt "GET" "quic" true).
Proof. split; reflexivity. Qed.

(** The DoQ client writes any other operation only after the handshake of that connection was
    complete. *)
Theorem C50_doq_client unpack pack answer conn dials q c b :
  let trace := fst (doq_resolve unpack pack answer conn dials q) in
  ~ repeatable q -> In (Wrote c b) trace ->
  exists pre post, trace = pre ++ Wrote c b :: post /\ In (Completed c) pre /\ qc_hs c <> HsNever.
Proof. exact (doq_early unpack pack answer conn dials q c b). Qed.
Print Assumptions C50_doq_client.

(** *** Servers *)
Theorem C50_doh_server resolve base optlen unpack pack base64dec splitHost parseIP o r q ci :
  In (Call q ci) (fst (dohHandler resolve base optlen unpack pack base64dec splitHost parseIP o r)) -> early r -> repeatable q.
Proof. exact (doh_server_early resolve base optlen unpack pack base64dec splitHost parseIP o r q ci). Qed.
Print Assumptions C50_doh_server.

Theorem C50_doq_server resolve unpack pack ci hs data q ci' :
  In (Call q ci') (fst (handleStream resolve unpack pack ci hs data)) -> ~ repeatable q ->
  hs <> HsNever /\ fst (handleStream resolve unpack pack ci hs data) = [Handshake; Call q ci].
Proof. exact (doq_server_early resolve unpack pack ci hs data q ci'). Qed.
Print Assumptions C50_doq_server.

(** Examples: an update (opcode 5) on a connection whose handshake is not complete *)
Definition C50_q (op : N) : msg := set_question [Q "a." 1 1] (Msg 7 false op false false true false false false 0 [] [] [] []).
Definition C50_doq (op : N) (hs : handshake) : list cevent :=
  fst (doq_resolve (fun _ => None) (fun _ => Some [1]) (fun _ _ => None) (Some (QConn 1 hs true)) [] (C50_q op)).
Example C50_update : C50_doq 5 HsLater = [Completed (QConn 1 HsLater true); Opened (QConn 1 HsLater true); Wrote (QConn 1 HsLater true) [0;1;1]].
Proof. vm_compute. reflexivity. Qed.
Example C50_query : C50_doq 0 HsLater = [Opened (QConn 1 HsLater true); Wrote (QConn 1 HsLater true) [0;1;1]].
Proof. vm_compute. reflexivity. Qed.
Example C50_gone : C50_doq 5 HsNever = [Ended (QConn 1 HsNever true)].
Proof. vm_compute. reflexivity. Qed.
Example C50_get op : fst (doh_resolve (fun _ => 40) (fun _ => 4) (fun _ => None) (fun _ => Some [1;2]) (fun _ => "b64"%string) (fun _ => Some "u"%string)
    (fun _ => None) (DohCOpt "GET" "quic" true) (C50_q op)) = [HReq (if isReplayableOpcode op then "GET_0RTT" else "GET") "u" []].
Proof. reflexivity. Qed.
Example C50_opcodes : repeatable (C50_q 4) /\ ~ repeatable (C50_q 5) /\ ~ repeatable (C50_q 6).
Proof. split; [right; reflexivity|]. split; intros [H|H]; discriminate H. Qed.
