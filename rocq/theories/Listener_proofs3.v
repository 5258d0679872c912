From Verif Require Import Base Base_proofs Bytes Dns Net Cidr_model Cidr_spec Cidr_proofs2 Net_spec Net_proofs Modifiers_model Modifiers_spec Router_model Router_proofs Listener_model Listener_spec Listener_proofs Listener_proofs2.
Local Open Scope N_scope.

Lemma repeatable_spec q : isReplayableOpcode (m_opcode q) = true <-> repeatable q.
Proof. unfold isReplayableOpcode, repeatable, OpcodeQuery, OpcodeNotify. rewrite orb_true_iff, !N.eqb_eq. reflexivity. Qed.
Lemma not_repeatable q : isReplayableOpcode (m_opcode q) = false <-> ~ repeatable q.
Proof. rewrite <- repeatable_spec. destruct (isReplayableOpcode (m_opcode q)); intuition congruence. Qed.
Lemma not_early_repeatable r q : ~ (early r /\ isReplayableOpcode (m_opcode q) = false) <-> (early r -> repeatable q).
Proof.
  rewrite not_repeatable. split.
  - intros N E. destruct (isReplayableOpcode (m_opcode q)) eqn:X; [apply repeatable_spec, X|]. exfalso. apply N. split; [exact E|]. apply not_repeatable, X.
  - intros H [E N]. exact (N (H E)).
Qed.
Lemma server_name_spec r : server_name r (tls_name r).
Proof. unfold server_name, tls_name. destruct (h_tls r) as [[d n]|]; [right; exists d|left; split]; reflexivity. Qed.
Lemma server_name_fun r n : server_name r n -> n = tls_name r.
Proof. unfold server_name, tls_name. intros [[-> ->]|[d ->]]; reflexivity. Qed.
Lemma sent_spec pack m out : packs pack m out -> sent pack m out.
Proof. unfold packs, sent. destruct (pack m) as [b|]; intros ->; [left; exists b|right]; split; reflexivity. Qed.

Lemma to_nat_le (x : nat) (n : N) : Nat.ltb (N.to_nat n) x = false <-> N.of_nat x <= n.
Proof. rewrite Nat.ltb_ge. lia. Qed.
Lemma post_size r : Nat.ltb maxDoHRequestSize (length (h_body r)) = false <-> N.of_nat (length (h_body r)) <= 65535.
Proof. exact (to_nat_le _ _). Qed.

Section Doh.
Variable resolve : msg -> client -> result.
Variable base : msg -> N.
Variable optlen : edns0 -> N.
Variable unpack : bytes -> option msg.
Variable pack : msg -> option bytes.
Variable base64dec : string -> option bytes.
Variable splitHost : string -> string.
Variable parseIP : string -> bytes.
Notation handler := (dohHandler resolve base optlen unpack pack base64dec splitHost parseIP).
Notation respond := (parseAndRespond resolve base optlen unpack pack splitHost parseIP).
Notation address := (extractClientAddress splitHost parseIP).

Lemma doh_request o r b : request base64dec r b -> handler o r = respond o b r.
Proof.
  intros [s l b' M D B|M S Br]; unfold dohHandler; rewrite M; cbn [String.eqb Ascii.eqb Bool.eqb].
  - unfold getHandler. rewrite D, B. reflexivity.
  - unfold postHandler, read_max. rewrite (proj2 (post_size r) S), Br. reflexivity.
Qed.
Lemma doh_norequest o r : (forall b, ~ request base64dec r b) -> exists n, handler o r = ([], Status n) /\ In n [400; 405; 413].
Proof.
  intros N. unfold dohHandler. destruct (String.eqb_spec (h_method r) "GET") as [M|_].
  - unfold getHandler. destruct (h_dns r) as [|s l] eqn:D; [exists 400; split; [reflexivity|cbn; tauto]|].
    destruct (base64dec s) as [b|] eqn:B; [|exists 400; split; [reflexivity|cbn; tauto]]. exfalso. exact (N b (Req_get _ _ s l b M D B)).
  - destruct (String.eqb_spec (h_method r) "POST") as [M|_]; [|exists 405; split; [reflexivity|cbn; tauto]].
    unfold postHandler, read_max. destruct (Nat.ltb maxDoHRequestSize (length (h_body r))) eqn:S; [exists 413; split; [reflexivity|cbn; tauto]|].
    destruct (h_broken r) eqn:B; [exists 400; split; [reflexivity|cbn; tauto]|]. exfalso. exact (N _ (Req_post _ _ M (proj1 (post_size r) S) B)).
Qed.
Lemma doh_toolarge o r : h_method r = "POST"%string -> 65535 < N.of_nat (length (h_body r)) -> handler o r = ([], Status 413).
Proof.
  intros M S. unfold dohHandler. rewrite M. cbn [String.eqb Ascii.eqb Bool.eqb]. unfold postHandler, read_max.
  destruct (Nat.ltb maxDoHRequestSize (length (h_body r))) eqn:E; [reflexivity|]. apply post_size in E. lia.
Qed.

Section Hyps.
Hypothesis OL : forall d, optlen (PADDING d) = 4 + N.of_nat (length d).
Variable parseAddr : string -> option bytes.
Hypothesis PO : parse_ok parseAddr.
Hypothesis PI : forall s, parseIP s = [] \/ ip_ok (parseIP s).
Hypothesis PE : parseIP EmptyString = [].

Theorem doh_acl id nets l proxy r : parseCIDRList parseAddr nets = Some l ->
  (forall q ci, In (Call q ci) (fst (handler (DohOpt id l proxy) r)) -> ci_ip ci = address proxy r /\ allowed parseAddr nets (ci_ip ci)) /\
  (forall b q, request base64dec r b -> unpack b = Some q -> m_question q <> [] -> (early r -> repeatable q) -> address proxy r <> [] -> opt_wf q ->
     (allowed parseAddr nets (address proxy r) -> exists name, server_name r name /\
        fst (handler (DohOpt id l proxy) r) = [Call q (Client (address proxy r) (h_path r) name id)]) /\
     (~ allowed parseAddr nets (address proxy r) -> exists a m out, error_reply q 5 a /\ padded q a m /\ sent pack m out /\
        handler (DohOpt id l proxy) r = ([], out))).
Proof.
  intros HN. set (o := DohOpt id l proxy). pose proof (address_ok splitHost parseIP PI PE proxy r) as AO. split.
  - intros q ci I. assert (D : (exists b, request base64dec r b) \/ forall b, ~ request base64dec r b).
    { destruct (String.eqb_spec (h_method r) "GET") as [M|M].
      - destruct (h_dns r) as [|s dl] eqn:D; [right; intros b H; inversion H; congruence|].
        destruct (base64dec s) as [b|] eqn:B; [left; exists b; exact (Req_get _ _ s dl b M D B)|right; intros b H; inversion H; congruence].
      - destruct (String.eqb_spec (h_method r) "POST") as [M'|M']; [|right; intros b H; inversion H; congruence].
        destruct (h_broken r) eqn:B; [right; intros b H; inversion H; congruence|].
        destruct (Nat.ltb maxDoHRequestSize (length (h_body r))) eqn:S; [right; intros b H; inversion H; subst; [congruence|]; rewrite (proj2 (post_size r)) in S by assumption; discriminate S|].
        left. exists (h_body r). exact (Req_post _ _ M' (proj1 (post_size r) S) B). }
    destruct D as [[b D]|D].
    + rewrite (doh_request o r b D) in I. apply doh_calls in I. destruct I as (_ & _ & _ & -> & _ & A). cbn [ci_ip do_proxy o] in *.
      split; [reflexivity|]. exact (proj1 (allowed_spec parseAddr PO nets l _ HN AO) A).
    + destruct (doh_norequest o r D) as (n & E & _). rewrite E in I. destruct I.
  - intros b q R U Hq Er Ha W. rewrite (doh_request o r b R). apply not_early_repeatable in Er. split.
    + intros A. apply (allowed_spec parseAddr PO nets l _ HN AO) in A. exists (tls_name r). split; [apply server_name_spec|].
      rewrite (doh_checks base optlen resolve unpack pack splitHost parseIP o b r q U Hq Er Ha). cbv zeta. cbn [do_allowed do_proxy do_id o]. rewrite A.
      destruct (resolve q _) as [a| |e]; try (destruct (padAnswer base optlen q _) as [m|]; [destruct (pack m)|]); reflexivity.
    + intros A. apply (allowed_false parseAddr PO nets l _ HN AO) in A.
      destruct (doh_refused base optlen OL resolve unpack pack splitHost parseIP o b r q U Hq Er Ha A W) as (a & m & out & E & P & S & H).
      exists a, m, out. split; [exact E|]. split; [exact P|]. split; [apply sent_spec, S|exact H].
Qed.

Theorem doh_reply id nets l proxy r b q name : parseCIDRList parseAddr nets = Some l ->
  request base64dec r b -> unpack b = Some q -> m_question q <> [] -> (early r -> repeatable q) -> address proxy r <> [] -> opt_wf q ->
  allowed parseAddr nets (address proxy r) -> server_name r name ->
  let ci := Client (address proxy r) (h_path r) name id in (forall a, resolve q ci = Ans a -> paddable a) ->
  (resolve q ci = Drop -> handler (DohOpt id l proxy) r = ([Call q ci], Status 403)) /\
  (resolve q ci <> Drop -> exists a m out, outcome q (resolve q ci) a /\ padded q a m /\ sent pack m out /\
     handler (DohOpt id l proxy) r = ([Call q ci], out)).
Proof.
  intros HN R U Hq Er Ha W A SN. apply server_name_fun in SN. subst name. cbv zeta. intros P.
  pose proof (address_ok splitHost parseIP PI PE proxy r) as AO. apply (allowed_spec parseAddr PO nets l _ HN AO) in A.
  apply not_early_repeatable in Er. rewrite (doh_request (DohOpt id l proxy) r b R).
  destruct (doh_allowed base optlen OL resolve unpack pack splitHost parseIP (DohOpt id l proxy) b r q U Hq Er Ha A W P) as [H1 H2].
  split; [exact H1|]. intros ND. destruct (H2 ND) as (a & m & out & O & Pd & S & H). exists a, m, out.
  split; [exact O|]. split; [exact Pd|]. split; [apply sent_spec, S|exact H].
Qed.

(** Requests that carry no query *)
Theorem doh_invalid o r :
  ((forall b, ~ request base64dec r b) -> exists n, handler o r = ([], Status n) /\ In n [400; 405; 413]) /\
  (forall b, request base64dec r b ->
    ((unpack b = None \/ exists q, unpack b = Some q /\ m_question q = []) -> handler o r = ([], Status 400)) /\
    (forall q, unpack b = Some q -> m_question q <> [] -> early r -> ~ repeatable q -> handler o r = ([], Status 425)) /\
    (forall q, unpack b = Some q -> m_question q <> [] -> (early r -> repeatable q) -> address (do_proxy o) r = [] -> handler o r = ([], Status 400))).
Proof.
  split; [apply doh_norequest|]. intros b R. rewrite (doh_request o r b R).
  destruct (doh_bad base optlen resolve unpack pack splitHost parseIP o b r) as [H1 H2]. split; [|split].
  - intros [U|(q & U & E)]; [exact (H1 U)|]. exact (proj1 (H2 q U) E).
  - intros q U Hq E N. apply (proj1 (proj2 (H2 q U)) Hq E). apply not_repeatable, N.
  - intros q U Hq E N. apply (proj2 (proj2 (H2 q U)) Hq); [apply not_early_repeatable, E|exact N].
Qed.
End Hyps.
End Doh.

(** *** The plain listener, in terms of the configuration *)
Section Dns.
Variable resolve : msg -> client -> result.
Variable base : msg -> N.
Variable optlen : edns0 -> N.
Variable truncate : N -> msg -> msg.
Hypothesis OL : forall d, optlen (PADDING d) = 4 + N.of_nat (length d).
Variable parseAddr : string -> option bytes.
Hypothesis PO : parse_ok parseAddr.
Notation handler := (listenHandler resolve base optlen truncate).

Theorem dns_acl id protocol nets l src tls q : parseCIDRList parseAddr nets = Some l -> src = [] \/ ip_ok src -> m_question q <> [] -> opt_wf q ->
  (allowed parseAddr nets src -> fst (handler id protocol l src tls q) = [Call q (Client src "" tls id)]) /\
  (~ allowed parseAddr nets src -> exists a m, error_reply q 5 a /\ delivered truncate protocol q a m /\
     handler id protocol l src tls q = ([], Written m)).
Proof.
  intros HN O Hq W. split.
  - intros A. apply (allowed_spec parseAddr PO nets l _ HN O) in A. unfold listenHandler. destruct (m_question q); [destruct Hq; reflexivity|]. rewrite A. cbv zeta.
    destruct (resolve q _) as [a| |e]; try reflexivity; lazymatch goal with |- context [match ?x with Some _ => _ | None => _ end] => destruct x; reflexivity end.
  - intros A. apply (allowed_false parseAddr PO nets l _ HN O) in A. exact (dns_refused base optlen OL resolve truncate id protocol l src tls q Hq A W).
Qed.
Theorem dns_reply id protocol nets l src tls q : parseCIDRList parseAddr nets = Some l -> src = [] \/ ip_ok src -> opt_wf q ->
  let ci := Client src "" tls id in (forall a, resolve q ci = Ans a -> paddable a) ->
  (m_question q = [] -> handler id protocol l src tls q = ([], Silent)) /\
  (m_question q <> [] -> allowed parseAddr nets src -> resolve q ci = Drop -> handler id protocol l src tls q = ([Call q ci], Closed)) /\
  (m_question q <> [] -> allowed parseAddr nets src -> resolve q ci <> Drop ->
     exists a m, outcome q (resolve q ci) a /\ delivered truncate protocol q a m /\ handler id protocol l src tls q = ([Call q ci], Written m)).
Proof.
  intros HN O W ci P. split; [apply dns_noquestion|]. split; intros Hq A; apply (allowed_spec parseAddr PO nets l _ HN O) in A.
  - exact (proj1 (dns_allowed base optlen OL resolve truncate id protocol l src tls q Hq A W P)).
  - exact (proj2 (dns_allowed base optlen OL resolve truncate id protocol l src tls q Hq A W P)).
Qed.
End Dns.

(** *** DoQ *)
Lemma framed_read p data : framed p data -> read_frame data = Some p.
Proof.
  intros (h & l & rest & -> & L). unfold read_frame. rewrite <- L, Nat2N.id, app_length.
  rewrite (proj2 (Nat.leb_le _ _)) by lia. rewrite firstn_app, Nat.sub_diag, firstn_all, firstn_O, app_nil_r. reflexivity.
Qed.
Lemma read_framed p data : read_frame data = Some p -> framed p data.
Proof.
  unfold read_frame. destruct data as [|h [|l rest]]; try discriminate. destruct (Nat.leb_spec (N.to_nat (h * 256 + l)) (length rest)) as [H|H]; [|discriminate].
  intros [= <-]. exists h, l, (skipn (N.to_nat (h * 256 + l)) rest). rewrite firstn_skipn. split; [reflexivity|]. rewrite firstn_length_le by exact H. lia.
Qed.
Lemma frame_framed p : N.of_nat (length p) < 65536 -> framed p (frame p).
Proof. intros H. apply read_framed. rewrite <- (app_nil_r (frame p)). apply frame_read, H. Qed.
Lemma keepalive_iff q : opt_wf q -> (has_keepalive q = true <-> keepalive q).
Proof.
  intros W. rewrite (keepalive_spec q W). unfold keepalive. split.
  - intros (pre & r & post & opts & E & T & F & D & o & I & C). exists pre, r, post, opts, o. tauto.
  - intros (pre & r & post & opts & o & E & T & F & D & I & C). exists pre, r, post, opts. repeat (split; [assumption|]). exists o. tauto.
Qed.

Section Doq.
Variable resolve : msg -> client -> result.
Variable unpack : bytes -> option msg.
Variable pack : msg -> option bytes.
Hypothesis UW : forall b q, unpack b = Some q -> opt_wf q.
Notation stream := (handleStream resolve unpack pack).

(** Streams without a query to be served *)
Theorem doq_noquery ci hs data :
  (forall b, framed b data -> match unpack b with None => True | Some q => m_question q = [] \/ keepalive q \/ (~ repeatable q /\ hs = HsNever) end) ->
  stream ci hs data = ([], Silent).
Proof.
  intros H. apply doq_ignored. destruct (read_frame data) as [b|] eqn:R; [right|left; reflexivity]. exists b. split; [reflexivity|].
  specialize (H b (read_framed _ _ R)). destruct (unpack b) as [q|] eqn:U; [right; exists q; split; [reflexivity|]|left; reflexivity].
  destruct H as [H|[H|[H1 H2]]]; [left; exact H|right; left; apply keepalive_iff; [exact (UW b q U)|exact H]|right; right]. split; [apply not_repeatable, H1|exact H2].
Qed.
Theorem doq_reply ci hs data b q : framed b data -> unpack b = Some q -> m_question q <> [] -> ~ keepalive q -> (repeatable q \/ hs <> HsNever) ->
  exists w, (repeatable q -> w = []) /\ (~ repeatable q -> w = [Handshake]) /\
  (resolve q ci = Drop -> stream ci hs data = (w ++ [Call q ci], Crash)) /\
  (resolve q ci <> Drop -> exists a, outcome q (resolve q ci) a /\
     (forall p, pack a = Some p -> N.of_nat (length p) < 65536 -> exists out, framed p out /\ length out = (2 + length p)%nat /\ stream ci hs data = (w ++ [Call q ci], Body out)) /\
     (pack a = None -> stream ci hs data = (w ++ [Call q ci], Silent))).
Proof.
  intros F U Hq K Rp. apply framed_read in F.
  assert (K' : has_keepalive q = false) by (destruct (has_keepalive q) eqn:E; [destruct K; apply keepalive_iff; [exact (UW b q U)|exact E]|reflexivity]).
  assert (Hh : ~ held hs q).
  { intros [H1 H2]. apply not_repeatable in H1. destruct Rp as [R|R]; [exact (H1 R)|exact (R H2)]. }
  destruct (doq_served resolve unpack pack ci hs data b q F U Hq K' Hh) as [A B]. exists (waits q).
  split; [intros R; unfold waits; rewrite (proj2 (repeatable_spec q) R); reflexivity|].
  split; [intros R; unfold waits; rewrite (proj2 (not_repeatable q) R); reflexivity|]. split; [exact A|].
  intros ND. destruct (B ND) as (a & O & E). exists a. split; [exact O|]. split.
  - intros p Hp L. rewrite Hp in E. exists (frame p). split; [apply frame_framed, L|]. split; [reflexivity|exact E].
  - intros Hp. rewrite Hp in E. exact E.
Qed.

Variable parseAddr : string -> option bytes.
Hypothesis PO : parse_ok parseAddr.
Theorem doq_acl id nets l src tls streams : parseCIDRList parseAddr nets = Some l -> src = [] \/ ip_ok src ->
  (~ allowed parseAddr nets src -> handleConnection resolve unpack pack id l src tls streams = []) /\
  (allowed parseAddr nets src -> Forall2 (fun s r => r = stream (Client src "" tls id) (fst s) (snd s)) streams (handleConnection resolve unpack pack id l src tls streams)).
Proof.
  intros HN O. unfold handleConnection. split; intros A.
  - rewrite (allowed_false parseAddr PO nets l _ HN O A). reflexivity.
  - rewrite (proj2 (allowed_spec parseAddr PO nets l _ HN O) A). induction streams as [|[hs d] streams IH]; constructor; [reflexivity|exact IH].
Qed.
End Doq.

(** *** ODoH *)
Section Odoh.
Variable resolve : msg -> client -> result.
Variable base : msg -> N.
Variable optlen : edns0 -> N.
Variable unpack : bytes -> option msg.
Variable pack : msg -> option bytes.
Variable base64dec : string -> option bytes.
Variable splitHost : string -> string.
Variable parseIP : string -> bytes.
Variable decrypt encrypt : bytes -> option bytes.
Notation handler := (ODoHqueryHandler resolve base optlen unpack pack base64dec splitHost parseIP decrypt encrypt).

Definition oblivious (r : httpreq) : Prop := h_method r = "POST"%string /\ h_ctype r = "application/oblivious-dns-message"%string.

Lemma odoh_reply id doh nets r b q d name : oblivious r -> h_broken r = false -> N.of_nat (length (h_body r)) <= 4096 ->
  decrypt (h_body r) = Some b -> unpack b = Some q -> m_question q <> [] -> h_tls r = Some (d, name) ->
  let ci := Client [] "" name id in
  (resolve q ci = Drop -> handler id doh nets r = ([Call q ci], Status 403)) /\
  (resolve q ci <> Drop -> exists a, outcome q (resolve q ci) a /\
     (forall p e, pack a = Some p -> encrypt p = Some e -> handler id doh nets r = ([Call q ci], Body e)) /\
     (pack a = None -> handler id doh nets r = ([Call q ci], Silent)) /\
     (forall p, pack a = Some p -> encrypt p = None -> handler id doh nets r = ([Call q ci], Status 400))).
Proof.
  intros [M T] B L D U Hq Ht ci. unfold ODoHqueryHandler. rewrite M, T, B. cbn [String.eqb Ascii.eqb Bool.eqb negb orb andb].
  rewrite firstn_all2 by lia. rewrite D, U, Ht. destruct (m_question q) as [|x l] eqn:Eq; [destruct Hq; reflexivity|]. fold ci. split; [intros ->; reflexivity|].
  destruct (resolve q ci) as [a| |e]; intros ND; [|destruct ND; reflexivity|].
  - exists a. split; [reflexivity|]. split; [intros p e -> ->; reflexivity|]. split; [intros ->; reflexivity|intros p -> ->; reflexivity].
  - exists (set_rcode empty_msg q RcodeServerFailure). split; [apply error_reply_rcode; rewrite Eq; discriminate|].
    split; [intros p e' -> ->; reflexivity|]. split; [intros ->; reflexivity|intros p -> ->; reflexivity].
Qed.
Lemma odoh_invalid id doh nets r : oblivious r ->
  (forall b q, decrypt (firstn (N.to_nat 4096) (h_body r)) = Some b -> unpack b = Some q -> m_question q = []) -> handler id doh nets r = ([], Status 400).
Proof.
  intros [M T] H. unfold ODoHqueryHandler. rewrite M, T. cbn [String.eqb Ascii.eqb Bool.eqb negb orb].
  destruct (h_broken r && _)%bool; [reflexivity|]. destruct (decrypt (firstn (N.to_nat 4096) (h_body r))) as [b|] eqn:D; [|reflexivity].
  destruct (unpack b) as [q|] eqn:U; [|reflexivity]. rewrite (H b q eq_refl U). reflexivity.
Qed.
Lemma odoh_plain id doh nets r : ~ oblivious r ->
  (doh = false \/ h_method r = "POST"%string /\ h_ctype r <> "application/dns-message"%string -> handler id doh nets r = ([], Status 405)) /\
  (doh = true -> h_method r <> "POST"%string \/ h_ctype r = "application/dns-message"%string ->
   handler id doh nets r = dohHandler resolve base optlen unpack pack base64dec splitHost parseIP (DohOpt id nets None) r).
Proof.
  intros N. unfold ODoHqueryHandler, oblivious in *. destruct (String.eqb_spec (h_method r) "POST") as [M|M]; destruct (String.eqb_spec (h_ctype r) "application/dns-message") as [T|T];
    cbn [negb orb]; split; try (intros -> H; try reflexivity; tauto); try (intros [->|[? ?]]; [reflexivity|congruence]).
  destruct (String.eqb_spec (h_ctype r) "application/oblivious-dns-message") as [O|O]; [exfalso; apply N; split; assumption|]. reflexivity.
Qed.
End Odoh.

Lemma packet_reply resolve unpack p :
  (unpack p = None -> packetConn_Write resolve unpack p = ([], Status 0)) /\
  (forall q, unpack p = Some q -> let ci := Client [127;0;0;1] "" "" "" in
     (forall a, resolve q ci = Ans a -> packetConn_Write resolve unpack p = ([Call q ci], Written a)) /\
     ((forall a, resolve q ci <> Ans a) -> packetConn_Write resolve unpack p = ([Call q ci], Status 0))).
Proof.
  unfold packetConn_Write. split; [intros ->; reflexivity|]. intros q ->. cbv zeta. split; [intros a ->; reflexivity|].
  intros N. destruct (resolve q _) as [a| |e]; [destruct (N a); reflexivity|reflexivity|reflexivity].
Qed.

Lemma odoh_called resolve base optlen unpack pack base64dec splitHost parseIP decrypt encrypt id doh nets r b q d name :
  oblivious r -> h_broken r = false -> N.of_nat (length (h_body r)) <= 4096 ->
  decrypt (h_body r) = Some b -> unpack b = Some q -> m_question q <> [] -> h_tls r = Some (d, name) ->
  fst (ODoHqueryHandler resolve base optlen unpack pack base64dec splitHost parseIP decrypt encrypt id doh nets r) = [Call q (Client [] "" name id)].
Proof.
  intros [M T] B L D U Hq Ht. unfold ODoHqueryHandler. rewrite M, T, B. cbn [String.eqb Ascii.eqb Bool.eqb negb orb andb].
  rewrite firstn_all2 by lia. rewrite D, U, Ht. destruct (m_question q) as [|x l]; [destruct Hq; reflexivity|].
  destruct (resolve q _) as [a| |e]; try reflexivity; destruct (pack _) as [p|]; try reflexivity; destruct (encrypt p); reflexivity.
Qed.
Lemma doq_crash : exists resolve unpack pack ci hs data, snd (handleStream resolve unpack pack ci hs data) = Crash.
Proof.
  exists (fun _ _ => Drop), (fun _ => Some (set_question [Q "a." 1 1] empty_msg)), (fun _ => None), (Client [] "" "" ""), HsDone, [0; 0]. reflexivity.
Qed.
