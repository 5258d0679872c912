(** C85: every answer carries the ID and the question of its query, through any configuration. *)
From Verif Require Import Base Bytes Net Dns Client_spec Client_model Client_proofs Listener_model Flow_model Flow_spec Flow_proofs NetRes_spec C84_bootstrap.
From Verif Require Modifiers_model Dedup_model Modifiers_spec.
Local Open Scope N_scope.

(** However elements, groups and validators are put together, over whatever gives replies, and in whatever state each of them is: what comes out are replies. *)
Theorem C85_configuration : forall leaf : answers -> Prop, (forall B, leaf B -> fair B) -> forall B, built leaf B -> fair B.
Proof. exact built_fair. Qed.
Print Assumptions C85_configuration.
(** DoQ, plain, DoT and DTLS clients give replies, whatever their servers send, so a configuration over them does; *)
Theorem C85_clients : forall B, built net_client B -> fair B.
Proof. exact (built_fair net_client net_fair). Qed.
Print Assumptions C85_clients.
(** each element sees to it on its own. *)
Theorem C85_element : forall F, element F -> forall up, fair (fun q ci a => up q ci = Ans a) -> fair (fun q ci a => F up q ci = Some (Ans a)).
Proof. exact element_keeps. Qed.
Print Assumptions C85_element.
(** A validator asks for more than the query; none of that is what its client gets. *)
Theorem C85_validator : forall verify keyTag toDS hashName logOnly B, fair B -> fair (fun q ci a => ends B ci (Dnssec_model.resolve verify keyTag toDS hashName logOnly q) (Ans a)).
Proof. exact validator_keeps. Qed.
Print Assumptions C85_validator.

(** What a plain, DoT or DTLS listener writes then is a reply to the request, also if it refuses the client, or its resolver fails; *)
Theorem C85_listener : forall up, fair (fun q ci a => up q ci = Ans a) -> forall base optlen truncate id protocol allowed src tlsname req calls a,
  (forall n m, m_id (truncate n m) = m_id m /\ m_question (truncate n m) = m_question m) ->
  listenHandler up base optlen truncate id protocol allowed src tlsname req = (calls, Written a) -> reply_to req a.
Proof. exact served_plain. Qed.
Print Assumptions C85_listener.
(** so is the body that a DoH listener sends, *)
Theorem C85_doh : forall up, fair (fun q ci a => up q ci = Ans a) -> forall base optlen unpack pack splitHost parseIP o b r calls out,
  parseAndRespond up base optlen unpack pack splitHost parseIP o b r = (calls, Body out) -> exists q a, unpack b = Some q /\ pack a = Some out /\ reply_to q a.
Proof. exact served_doh. Qed.
Print Assumptions C85_doh.
(** and what a DoQ listener sends on a stream, to the query of that stream. *)
Theorem C85_doq : forall up, fair (fun q ci a => up q ci = Ans a) -> forall unpack pack ci hs data calls out, handleStream up unpack pack ci hs data = (calls, Body out) ->
  exists b q a p, read_frame data = Some b /\ unpack b = Some q /\ pack a = Some p /\ out = frame p /\ reply_to q a.
Proof. exact served_doq. Qed.
Print Assumptions C85_doq.

(** ** A configuration: request-dedup before a name replacement before a validator before two clients *)
Example C85_ex_built : exists B, built net_client B /\ fair B.
Proof.
  set (doq := fun (q : msg) (_ : client) (a : msg) => exists conn dials, snd (doq_resolve (fun _ => None) (fun _ => None) (fun _ _ => None) conn dials q) = Ans a).
  assert (D : built net_client doq) by (apply built_leaf; apply net_doq; discriminate).
  eexists. match goal with |- ?P /\ _ => assert (H : P); [|exact (conj H (C85_clients _ H))] end.
  eapply (built_element net_client _ _ (e_dedup asked local)). eapply (built_element net_client _ _ (e_replace [fun n => n])).
  eapply (built_validator net_client (fun _ _ _ => false) (fun _ => 0) (fun _ _ => None) (fun _ _ _ s => s) false).
  eapply (built_group net_client [doq; _]). apply Forall_cons; [exact D|]. apply Forall_cons; [|apply Forall_nil]. apply built_leaf, net_pipeline.
Qed.
(** An upstream that repeats the query as a reply is fair; behind a replacement the client still sees the name it asked for *)
Definition reflect (q : msg) (_ : client) : result := Ans (set_reply empty_msg q).
Lemma reflect_fair : fair (fun q ci a => reflect q ci = Ans a).
Proof. intros q ci a _ [= <-]. apply reply_set. Qed.
Example C85_ex_replace : exists q' a, Modifiers_model.replace_resolve [fun _ => "other."%string] (fun q => reflect q local) asked = Some (q', Ans a) /\
  m_question q' = [Q "other." 1 1] /\ m_question a = [boot] /\ m_id a = 7 /\ reply_to asked a.
Proof.
  eexists. eexists. split; [reflexivity|]. repeat (split; [reflexivity|]). apply (C85_element _ (e_replace [fun _ => "other."%string]) reflect reflect_fair asked local); [discriminate|reflexivity].
Qed.
Example C85_ex_refused : forall up, exists a, listenHandler up (fun _ => 0) (fun _ => 0) (fun _ m => m) "l" "udp" [IPNet [10;0;0;0] [255;0;0;0]] [192;0;2;1] "" asked = ([], Written a) /\ reply_to asked a.
Proof. intros up. eexists. split; [reflexivity|]. apply (reply_made asked empty_msg). split; reflexivity. Qed.

(** ** DoH clients give whatever ID the server chose, and nothing behind them corrects it, so a client of a plain listener discards the answer *)
Theorem C85_doh_refuted : exists up, (forall ci, up asked ci = Ans served) /\ (forall q ci, up q ci = doh 0 q ci) /\
  exists a, listenHandler up (fun _ => 0) (fun _ => 0) (fun _ m => m) "l" "udp" [] [192;0;2;1] "" asked = ([Call asked (Client [192;0;2;1] "" "" "l")], Written a) /\ m_id a <> m_id asked.
Proof.
  exists (doh 0). split; [intros ci; exact (doh_serves 0)|]. split; [reflexivity|]. exists served. split; [|discriminate].
  unfold listenHandler. change (doh 0 asked (Client [192;0;2;1] "" "" "l")) with (doh 0 asked local). rewrite (doh_serves 0). reflexivity.
Qed.
Print Assumptions C85_doh_refuted.
(** ** Request-dedup and caches do correct it *)
Example C85_ex_corrected : exists a, Dedup_model.own_copy asked (doh 0 asked local) = Ans a /\ reply_to asked a.
Proof. rewrite (doh_serves 0). eexists. split; [reflexivity|]. apply reply_own; [discriminate|split; reflexivity]. Qed.

(** ** That a message is a response is looked at nowhere: a query that a server sends as an answer reaches the client *)
Definition unflagged : msg := set_id 7 (Msg 0 false 0 false false false false false false 0 [boot] [] [] []).
Definition unpack3 (b : bytes) : option msg := match b with [2] => Some unflagged | _ => None end.
Definition doh3 (m : msg) (ci : client) : result :=
  snd (doh_resolve (fun _ => 0) (fun _ => 0) unpack3 pack2 (fun _ => ""%string) (fun _ => Some "https://dns.example/"%string) web (DohCOpt "POST" "" false) m).
Lemma doh3_serves ci : doh3 asked ci = Ans unflagged.
Proof.
  unfold doh3. apply doh_answer. exists (HReq "POST" "https://dns.example/" [1]), (HResp 200 "application/dns-message" [2] false), [2]. split; [reflexivity|]. split; [reflexivity|]. split; [|split; [reflexivity|]].
  - repeat split; cbn; discriminate.
  - right. exists boot, [], boot, []. repeat split.
Qed.
Theorem C85_flag_refuted : reply_to asked unflagged /\ exists a, m_response a = false /\
  listenHandler doh3 (fun _ => 0) (fun _ => 0) (fun _ m => m) "l" "udp" [] [192;0;2;1] "" asked = ([Call asked (Client [192;0;2;1] "" "" "l")], Written a).
Proof.
  split; [apply reply_own; [discriminate|split; reflexivity]|]. exists unflagged. split; [reflexivity|].
  unfold listenHandler. rewrite (doh3_serves (Client [192;0;2;1] "" "" "l")). reflexivity.
Qed.
Print Assumptions C85_flag_refuted.
