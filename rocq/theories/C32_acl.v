(** C32: access control of the listeners. [nets] is the list of networks in the configuration, in
    text; [allowed] reads it. *)
From Verif Require Import Base Bytes Dns Cidr_spec Net_spec Modifiers_spec Listener_model Listener_spec Listener_proofs Listener_proofs2 Listener_proofs3.
Local Open Scope N_scope.

(** Plain, DoT and DTLS listeners call the resolver for clients inside the networks and answer
    REFUSED to all others. *)
Theorem C32_dns resolve base optlen truncate : (forall d, optlen (PADDING d) = 4 + N.of_nat (length d)) ->
  forall parseAddr, parse_ok parseAddr ->
  forall id protocol nets l src tls q, parseCIDRList parseAddr nets = Some l -> src = [] \/ ip_ok src -> m_question q <> [] -> opt_wf q ->
  (allowed parseAddr nets src -> fst (listenHandler resolve base optlen truncate id protocol l src tls q) = [Call q (Client src "" tls id)]) /\
  (~ allowed parseAddr nets src -> exists a m, error_reply q 5 a /\ delivered truncate protocol q a m /\
     listenHandler resolve base optlen truncate id protocol l src tls q = ([], Written m)).
Proof. exact (dns_acl resolve base optlen truncate). Qed.
Print Assumptions C32_dns.

(** The DoH listener does so for the client's address, which is that of the peer or the one
    forwarded by the proxy (C34). *)
Theorem C32_doh resolve base optlen unpack pack base64dec splitHost parseIP : (forall d, optlen (PADDING d) = 4 + N.of_nat (length d)) ->
  forall parseAddr, parse_ok parseAddr -> (forall s, parseIP s = [] \/ ip_ok (parseIP s)) -> parseIP EmptyString = [] ->
  forall id nets l proxy r, parseCIDRList parseAddr nets = Some l ->
  let address := extractClientAddress splitHost parseIP proxy r in
  let handler := dohHandler resolve base optlen unpack pack base64dec splitHost parseIP (DohOpt id l proxy) r in
  (forall q ci, In (Call q ci) (fst handler) -> ci_ip ci = address /\ allowed parseAddr nets (ci_ip ci)) /\
  (forall b q, request base64dec r b -> unpack b = Some q -> m_question q <> [] -> (early r -> repeatable q) -> address <> [] -> opt_wf q ->
     (allowed parseAddr nets address -> exists name, server_name r name /\ fst handler = [Call q (Client address (h_path r) name id)]) /\
     (~ allowed parseAddr nets address -> exists a m out, error_reply q 5 a /\ padded q a m /\ sent pack m out /\ handler = ([], out))).
Proof. exact (doh_acl resolve base optlen unpack pack base64dec splitHost parseIP). Qed.
Print Assumptions C32_doh.

(** The DoQ listener serves no stream of connections from outside. *)
Theorem C32_doq resolve unpack pack parseAddr : parse_ok parseAddr ->
  forall id nets l src tls streams, parseCIDRList parseAddr nets = Some l -> src = [] \/ ip_ok src ->
  (~ allowed parseAddr nets src -> handleConnection resolve unpack pack id l src tls streams = []) /\
  (allowed parseAddr nets src -> Forall2 (fun s r => r = handleStream resolve unpack pack (Client src "" tls id) (fst s) (snd s)) streams
     (handleConnection resolve unpack pack id l src tls streams)).
Proof. exact (doq_acl resolve unpack pack parseAddr). Qed.
Print Assumptions C32_doq.

(** The ODoH target looks at no networks: oblivious queries of any client reach the resolver. *)
Theorem C32_odoh_refuted resolve base optlen unpack pack base64dec splitHost parseIP decrypt encrypt id doh nets r b q d name :
  oblivious r -> h_broken r = false -> N.of_nat (length (h_body r)) <= 4096 ->
  decrypt (h_body r) = Some b -> unpack b = Some q -> m_question q <> [] -> h_tls r = Some (d, name) ->
  fst (ODoHqueryHandler resolve base optlen unpack pack base64dec splitHost parseIP decrypt encrypt id doh nets r) = [Call q (Client [] "" name id)].
Proof. exact (odoh_called resolve base optlen unpack pack base64dec splitHost parseIP decrypt encrypt id doh nets r b q d name). Qed.
Print Assumptions C32_odoh_refuted.

(** Examples: the network 10.0.0.0/8 and clients inside and outside, also as IPv4-mapped address *)
Definition C32_parse (s : string) : option bytes := if String.eqb s "10.0.0.0" then Some [10;0;0;0] else None.
Definition C32_q : msg := set_question [Q "a." 1 1] empty_msg.
Definition C32_run (ip : bytes) : option (list event * lout) :=
  option_map (fun l => listenHandler (fun q _ => Ans (set_reply empty_msg q)) (fun _ => 20) (fun _ => 4) (fun _ m => m) "x" "tcp" l ip "" C32_q)
    (parseCIDRList C32_parse ["10.0.0.0/8"%string]).
Example C32_in : C32_run [10;9;8;7] = Some ([Call C32_q (Client [10;9;8;7] "" "" "x")], Written (set_reply empty_msg C32_q)).
Proof. vm_compute. reflexivity. Qed.
Example C32_in_mapped : option_map fst (C32_run [0;0;0;0;0;0;0;0;0;0;255;255;10;9;8;7]) = Some [Call C32_q (Client [0;0;0;0;0;0;0;0;0;0;255;255;10;9;8;7] "" "" "x")].
Proof. vm_compute. reflexivity. Qed.
Example C32_out : C32_run [11;9;8;7] = Some ([], Written (set_rcode empty_msg C32_q 5)).
Proof. vm_compute. reflexivity. Qed.
Example C32_unknown : option_map fst (C32_run []) = Some [].
Proof. vm_compute. reflexivity. Qed.
Example C32_parse_ok : parse_ok C32_parse /\ ip_ok [11;9;8;7] /\ opt_wf C32_q.
Proof.
  split; [|split; [split; [repeat constructor|left; reflexivity]|constructor]]. intros s a. unfold C32_parse. destruct (String.eqb_spec s "10.0.0.0") as [->|]; [|discriminate].
  intros [= <-]. split; [split; [repeat constructor|left; reflexivity]|]. split; [reflexivity|discriminate].
Qed.
Example C32_doq_out : option_map (fun l => handleConnection (fun q _ => Ans q) (fun _ => Some C32_q) (fun _ => Some [1]) "x" l [11;1;1;1] "" [(HsDone, [0;1;7])])
  (parseCIDRList C32_parse ["10.0.0.0/8"%string]) = Some [].
Proof. vm_compute. reflexivity. Qed.
Example C32_doq_in : option_map (fun l => handleConnection (fun q _ => Ans q) (fun _ => Some C32_q) (fun _ => Some [1]) "x" l [10;1;1;1] "" [(HsDone, [0;1;7])])
  (parseCIDRList C32_parse ["10.0.0.0/8"%string]) = Some [([Call C32_q (Client [10;1;1;1] "" "" "x")], Body [0;1;1])].
Proof. vm_compute. reflexivity. Qed.
(** The ODoH target with the same networks, a client at 11.9.8.7 *)
Example C32_odoh : option_map (fun l => fst (ODoHqueryHandler (fun q _ => Ans q) (fun _ => 20) (fun _ => 4) (fun _ => Some C32_q) (fun _ => Some [1])
    (fun _ => None) (fun s => s) (fun _ => [11;9;8;7]) Some Some "x" false l
    (HttpReq "POST" [] "application/oblivious-dns-message" [7] false (Some (true, "t"%string)) "11.9.8.7:9" [] "/dns-query")))
  (parseCIDRList C32_parse ["10.0.0.0/8"%string]) = Some [Call C32_q (Client [] "" "t" "x")].
Proof. vm_compute. reflexivity. Qed.
