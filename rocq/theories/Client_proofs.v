From Verif Require Import Base Base_proofs Bytes Dns Modifiers_model Modifiers_spec Modifiers_proofs Modifiers_proofs2 Listener_model Listener_spec Listener_proofs Listener_proofs2 Listener_proofs3 Client_model Client_spec.
Local Open Scope N_scope.

Lemma echoes_spec q a : validateResponseQuestion q a = true <-> echoes q a.
Proof.
  unfold validateResponseQuestion, echoes. destruct (m_question q) as [|x l]; [split; [left; reflexivity|reflexivity]|]. destruct (m_question a) as [|y l'].
  - split; [discriminate|]. intros [H|(x' & l1 & y' & l2 & _ & H & _)]; discriminate H.
  - unfold equal_fold. rewrite !andb_true_iff, String.eqb_eq, !N.eqb_eq. split.
    + intros [[H1 H2] H3]. right. exists x, l, y, l'. repeat split; assumption.
    + intros [H|(x' & l1 & y' & l2 & E1 & E2 & H1 & H2 & H3)]; [discriminate H|]. injection E1 as <- <-. injection E2 as <- <-. tauto.
Qed.

Lemma pad_query_question base optlen q q' : padQuery base optlen q = Some q' -> m_question q' = m_question q /\ m_opcode q' = m_opcode q.
Proof.
  unfold padQuery. destruct (is_edns0 q); [|intros [= <-]; split; reflexivity]. destruct (prepare_padding _); [|discriminate]. cbv zeta.
  destruct (_ <=? _); [|discriminate]. intros [= <-]. split; reflexivity.
Qed.
Lemma echoes_question q q' a : m_question q' = m_question q -> (echoes q' a <-> echoes q a).
Proof. unfold echoes. intros ->. reflexivity. Qed.

Lemma bounded_body limit body broken b :
  readBoundedBody limit body broken = Some b <-> b = body /\ (length body <= limit)%nat /\ broken = false.
Proof.
  unfold readBoundedBody. destruct (Nat.ltb_spec (length body) (limit + 1)) as [H|H].
  - rewrite firstn_all2 by lia. destruct broken; cbn [andb]; [split; [discriminate|intros (_ & _ & E); discriminate E]|].
    destruct (Nat.ltb_spec limit (length body)) as [G|G]; [lia|]. split; [intros [= <-]; auto|intros (-> & _); reflexivity].
  - rewrite andb_false_r. rewrite firstn_length_le by exact H. destruct (Nat.ltb_spec limit (limit + 1)) as [G|G]; [|lia].
    split; [discriminate|]. intros (_ & L & _). lia.
Qed.
Lemma max_size n : (n <= maxDoHResponseSize)%nat <-> N.of_nat n <= 66047.
Proof. unfold maxDoHResponseSize. lia. Qed.
Lemma status_ok s : ((s <? 200) || (299 <? s))%bool = false <-> 200 <= s <= 299.
Proof. rewrite orb_false_iff, !N.ltb_ge. reflexivity. Qed.

Lemma http_response unpack q r a : responseFromHTTP unpack q r = Ans a <-> exists b, success r b /\ unpack b = Some a /\ echoes q a.
Proof.
  unfold responseFromHTTP, success. destruct ((hr_status r <? 200) || (299 <? hr_status r))%bool eqn:S.
  - split; [discriminate|]. intros (b & (H & _) & _). apply status_ok in H. congruence.
  - apply status_ok in S. destruct (readBoundedBody _ _ _) as [b|] eqn:B.
    + apply bounded_body in B. destruct B as (-> & L & Br). apply max_size in L. split.
      * intros H. exists (hr_body r). destruct (unpack (hr_body r)) as [a'|]; [|discriminate H]. destruct (validateResponseQuestion q a') eqn:V; [|discriminate H].
        injection H as <-. apply echoes_spec in V. repeat split; try assumption; tauto.
      * intros (b & (_ & _ & <- & _) & -> & E). apply echoes_spec in E. rewrite E. reflexivity.
    + split; [discriminate|]. intros (b & (_ & Br & <- & L) & _). apply max_size in L.
      assert (X : readBoundedBody maxDoHResponseSize (hr_body r) (hr_broken r) = Some (hr_body r)) by (apply bounded_body; auto). congruence.
Qed.
Lemma proxy_response unpack decrypt q r a : decodeProxyResponse unpack decrypt q r = Ans a <->
  hr_ctype r = "application/oblivious-dns-message"%string /\ exists b d, success r b /\ decrypt b = Some d /\ unpack d = Some a /\ echoes q a.
Proof.
  unfold decodeProxyResponse, success. destruct ((hr_status r <? 200) || (299 <? hr_status r))%bool eqn:S.
  - split; [discriminate|]. intros (_ & b & d & (H & _) & _). apply status_ok in H. congruence.
  - apply status_ok in S. destruct (String.eqb_spec (hr_ctype r) "application/oblivious-dns-message") as [C|C]; cbn [negb]; [|split; [discriminate|intros [H _]; contradiction]].
    destruct (readBoundedBody _ _ _) as [b|] eqn:B.
    + apply bounded_body in B. destruct B as (-> & L & Br). apply max_size in L. split.
      * intros H. split; [exact C|]. destruct (decrypt (hr_body r)) as [d|] eqn:D; [|discriminate H]. exists (hr_body r), d.
        destruct (unpack d) as [a'|]; [|discriminate H]. destruct (validateResponseQuestion q a') eqn:V; [|discriminate H].
        injection H as <-. apply echoes_spec in V. repeat split; try assumption; tauto.
      * intros (_ & b & d & (_ & _ & <- & _) & -> & -> & E). apply echoes_spec in E. rewrite E. reflexivity.
    + split; [discriminate|]. intros (_ & b & d & (_ & Br & <- & L) & _). apply max_size in L.
      assert (X : readBoundedBody maxDoHResponseSize (hr_body r) (hr_broken r) = Some (hr_body r)) by (apply bounded_body; auto). congruence.
Qed.

Lemma build_early base64 expand o b opcode req : buildRequest base64 expand o b opcode = Some req -> hq_method req = MethodGet0RTT ->
  dc_0rtt o = true /\ dc_transport o = "quic"%string /\ dc_method o = "GET"%string /\ isReplayableOpcode opcode = true.
Proof.
  unfold buildRequest. destruct (String.eqb_spec (dc_method o) "POST") as [M|M].
  - unfold buildPostRequest. destruct (expand None); [|discriminate]. intros [= <-] H. discriminate H.
  - destruct (String.eqb_spec (dc_method o) "GET") as [M'|M']; [|discriminate]. unfold buildGetRequest. destruct (expand _); [|discriminate]. intros [= <-]. cbn [hq_method].
    destruct (dc_0rtt o), (String.eqb_spec (dc_transport o) "quic"), (isReplayableOpcode opcode); cbn [andb]; intros H; try discriminate H. auto.
Qed.

Section Odoh.
Variable unpack : bytes -> option msg.
Variable pack : msg -> option bytes.
Variable base64 : bytes -> string.
Variable expand : option string -> option string.
Variable http : hreq -> option hresp.
Theorem odoh_answer encrypt decrypt config with_target o q a : let run := odoh_resolve unpack pack base64 expand http encrypt decrypt config with_target o q in
  snd run = Ans a <->
  exists req r b d, fst run = [req] /\ http req = Some r /\ success r b /\ hr_ctype r = "application/oblivious-dns-message"%string /\
    decrypt b = Some d /\ unpack d = Some a /\ echoes q a.
Proof.
  cbv zeta. unfold odoh_resolve. destruct config; cbn [negb]; [|split; [discriminate|intros (? & ? & ? & ? & H & _); discriminate H]].
  destruct (pack q) as [p|]; [|split; [discriminate|intros (? & ? & ? & ? & H & _); discriminate H]].
  destruct (encrypt p) as [e|]; [|split; [discriminate|intros (? & ? & ? & ? & H & _); discriminate H]].
  destruct (buildRequest base64 expand o e (m_opcode q)) as [req|]; [|split; [discriminate|intros (? & ? & ? & ? & H & _); discriminate H]]. cbn [fst snd].
  set (rq := HReq _ _ _). destruct (http rq) as [r|] eqn:Hr.
  - rewrite proxy_response. split.
    + intros (C & b & d & S & D & U & E). exists rq, r, b, d. repeat (split; [first [reflexivity|assumption]|]). exact E.
    + intros (req' & r' & b & d & E1 & E2 & S & C & D & U & E). injection E1 as <-. rewrite Hr in E2. injection E2 as <-. split; [exact C|]. exists b, d. tauto.
  - split; [discriminate|]. intros (req' & r' & b & d & E1 & E2 & _). injection E1 as <-. congruence.
Qed.
Theorem odoh_early encrypt decrypt config with_target o q req : In req (fst (odoh_resolve unpack pack base64 expand http encrypt decrypt config with_target o q)) ->
  hq_method req = MethodGet0RTT -> dc_0rtt o = true /\ dc_transport o = "quic"%string /\ dc_method o = "GET"%string /\ repeatable q.
Proof.
  unfold odoh_resolve. destruct config; [|intros []]. cbn [negb]. destruct (pack q) as [p|]; [|intros []]. destruct (encrypt p) as [e|]; [|intros []].
  destruct (buildRequest base64 expand o e (m_opcode q)) as [req'|] eqn:B; [|intros []]. cbv zeta. intros [<-|[]] M. cbn [hq_method] in M.
  destruct (build_early _ _ _ _ _ _ B M) as (H1 & H2 & H3 & H4). apply repeatable_spec in H4. tauto.
Qed.
End Odoh.
Lemma doh_options has_dns o o' : newDoHClient has_dns o = Some o' ->
  dc_0rtt o' = dc_0rtt o /\ dc_transport o' = dc_transport o /\ (dc_method o' = dc_method o \/ dc_method o = EmptyString) /\ In (dc_method o') ["GET"; "POST"]%string /\
  (dc_0rtt o = true -> dc_transport o = "quic"%string /\ has_dns = true /\ dc_method o' = "GET"%string).
Proof.
  destruct o as [m t z]. unfold newDoHClient. cbn [dc_method dc_transport dc_0rtt].
  destruct z; cbn [dc_method dc_transport dc_0rtt].
  - destruct (String.eqb_spec t "quic") as [->|]; [|discriminate]. destruct has_dns; [|discriminate]. cbn [negb].
    destruct (String.eqb_spec m "") as [->|N]; [|destruct (String.eqb_spec m "GET") as [->|]; [|discriminate]].
    + cbn. intros [= <-]. cbn. tauto.
    + cbn. intros [= <-]. cbn. tauto.
  - destruct (_ || _)%bool; [|discriminate]. destruct (String.eqb_spec m "") as [->|N].
    + cbn. intros [= <-]. cbn. repeat split; try tauto; discriminate.
    + cbn [dc_method]. destruct (String.eqb_spec m "POST") as [->|]; cbn [negb andb].
      * intros [= <-]. cbn. repeat split; try tauto; discriminate.
      * destruct (String.eqb_spec m "GET") as [->|]; [|discriminate]. intros [= <-]. cbn. repeat split; try tauto; discriminate.
Qed.

(** Which options are taken, and the method *)
Lemma doh_method has_dns o : let zero := dc_0rtt o in
  (newDoHClient has_dns o <> None <->
   In (dc_transport o) [""; "tcp"; "quic"]%string /\ In (dc_method o) [""; "GET"; "POST"]%string /\
   (zero = true -> dc_transport o = "quic"%string /\ has_dns = true /\ dc_method o <> "POST"%string)) /\
  forall o', newDoHClient has_dns o = Some o' ->
   (dc_method o = ""%string -> dc_method o' = if zero then "GET" else "POST")%string /\ (dc_method o <> ""%string -> dc_method o' = dc_method o).
Proof.
  destruct o as [m t z]. unfold newDoHClient. cbn [dc_method dc_transport dc_0rtt]. cbv zeta.
  assert (T : (String.eqb t "tcp" || String.eqb t "" || String.eqb t "quic")%bool = true <-> In t [""; "tcp"; "quic"]%string).
  { rewrite !orb_true_iff, !String.eqb_eq. cbn. clear. intuition congruence. }
  destruct z; cbn [dc_method dc_transport dc_0rtt].
  - clear T. destruct (String.eqb_spec t "quic") as [->|NQ]; cbn [negb].
    2: { split; [|discriminate]. split; [congruence|]. intros (_ & _ & H). destruct (H eq_refl). contradiction. }
    destruct has_dns; cbn [negb]; [|split; [|discriminate]; split; [congruence|]; intros (_ & _ & H); destruct (H eq_refl) as (_ & [=] & _)].
    destruct (String.eqb_spec m "") as [->|NE]; [|destruct (String.eqb_spec m "GET") as [->|NG]].
    + cbn. split; [split; [intros _; split; [tauto|]; split; [tauto|]; intros _; split; [reflexivity|]; split; [reflexivity|discriminate]|discriminate]|].
      intros o' [= <-]. cbn. split; [reflexivity|congruence].
    + cbn. split; [split; [intros _; split; [tauto|]; split; [tauto|]; intros _; split; [reflexivity|]; split; [reflexivity|discriminate]|discriminate]|].
      intros o' [= <-]. cbn. split; [discriminate|reflexivity].
    + split; [|discriminate]. split; [congruence|]. intros (_ & H & H'). destruct (H' eq_refl) as (_ & _ & NP). cbn in H. intuition congruence.
  - destruct (_ || _)%bool eqn:ET; [|split; [|discriminate]; split; [congruence|intros (H & _); apply T in H; congruence]].
    pose proof (proj1 T eq_refl) as T'. destruct (String.eqb_spec m "") as [->|NE]; [|cbn [dc_method]; destruct (String.eqb_spec m "POST") as [->|NP]; [|destruct (String.eqb_spec m "GET") as [->|NG]]]; cbn [negb andb dc_method String.eqb Ascii.eqb Bool.eqb].
    + split; [split; [intros _; split; [exact T'|]; split; [cbn; tauto|discriminate]|discriminate]|]. intros o' [= <-]. cbn. split; [reflexivity|congruence].
    + split; [split; [intros _; split; [exact T'|]; split; [cbn; tauto|discriminate]|discriminate]|]. intros o' [= <-]. cbn. split; [discriminate|reflexivity].
    + split; [split; [intros _; split; [exact T'|]; split; [cbn; tauto|discriminate]|discriminate]|]. intros o' [= <-]. cbn. split; [discriminate|reflexivity].
    + split; [|discriminate]. split; [congruence|]. intros (_ & H & _). cbn in H. intuition congruence.
Qed.

Section Http.
Variable base : msg -> N.
Variable optlen : edns0 -> N.
Variable unpack : bytes -> option msg.
Variable pack : msg -> option bytes.
Variable base64 : bytes -> string.
Variable expand : option string -> option string.
Variable http : hreq -> option hresp.
Notation doh := (doh_resolve base optlen unpack pack base64 expand http).

Theorem doh_answer o q a : snd (doh o q) = Ans a <->
  exists req r b, fst (doh o q) = [req] /\ http req = Some r /\ success r b /\ unpack b = Some a /\ echoes q a.
Proof.
  unfold doh_resolve. destruct (padQuery base optlen q) as [q'|] eqn:P; [|split; [discriminate|intros (? & ? & ? & H & _); discriminate H]].
  apply pad_query_question in P. destruct P as [P _]. destruct (pack q') as [p|]; [|split; [discriminate|intros (? & ? & ? & H & _); discriminate H]].
  destruct (buildRequest base64 expand o p (m_opcode q')) as [req|]; [|split; [discriminate|intros (? & ? & ? & H & _); discriminate H]]. cbn [fst snd].
  destruct (http req) as [r|] eqn:Hr.
  - rewrite http_response. split.
    + intros (b & S & U & E). exists req, r, b. rewrite (echoes_question _ _ _ P) in E. repeat (split; [first [reflexivity|assumption]|]). exact E.
    + intros (req' & r' & b & E1 & E2 & S & U & E). injection E1 as <-. rewrite Hr in E2. injection E2 as <-. exists b. rewrite (echoes_question _ _ _ P). tauto.
  - split; [discriminate|]. intros (req' & r' & b & E1 & E2 & _). injection E1 as <-. congruence.
Qed.

Theorem doh_early o q req : In req (fst (doh o q)) -> hq_method req = MethodGet0RTT ->
  dc_0rtt o = true /\ dc_transport o = "quic"%string /\ dc_method o = "GET"%string /\ repeatable q.
Proof.
  unfold doh_resolve. destruct (padQuery base optlen q) as [q'|] eqn:P; [|intros []]. destruct (pack q') as [p|]; [|intros []].
  destruct (buildRequest base64 expand o p (m_opcode q')) as [req'|] eqn:B; [|intros []]. intros [<-|[]] M.
  destruct (build_early _ _ _ _ _ _ B M) as (H1 & H2 & H3 & H4). apply pad_query_question in P. rewrite (proj2 P) in H4. apply repeatable_spec in H4. tauto.
Qed.
End Http.

(** *** DoQ *)
(** Tactic: the cases of a membership in concatenations *)
Ltac in_cases H := match type of H with
  | In _ (_ ++ _) => apply in_app_or in H; destruct H as [H|H]; in_cases H
  | In _ (_ :: _) => destruct H as [H|H]; [try discriminate H|in_cases H]
  | In _ [] => destruct H
  | _ => idtac end.
Lemma await_completed rs c c' : In (Completed c') (awaitReplaySafe rs c) -> c' = c /\ qc_hs c <> HsNever.
Proof. unfold awaitReplaySafe. destruct rs; [intros []|]. destruct (qc_hs c); intros [H|[]]; try discriminate H; injection H as <-; split; try reflexivity; discriminate. Qed.
Lemma open_await c : openStream false c = true -> In (Completed c) (awaitReplaySafe false c) /\ qc_hs c <> HsNever.
Proof. unfold openStream, awaitReplaySafe. destruct (qc_open c); [|discriminate]. destruct (qc_hs c); cbn; intros H; try discriminate H; split; try (left; reflexivity); discriminate. Qed.

Lemma stream_safe conn dials ev c : getStream conn dials false = (ev, Some c) -> In (Completed c) ev /\ qc_hs c <> HsNever.
Proof.
  unfold getStream. set (start := match conn with Some c => _ | None => _ end). destruct start as [[[ev0 c0] d0]|]; [|discriminate]. cbv zeta.
  destruct (openStream false c0) eqn:O.
  - intros [= <- <-]. destruct (open_await c0 O) as [H1 H2]. split; [|exact H2]. apply in_or_app. left. apply in_or_app. right. exact H1.
  - destruct d0 as [|[c1|] d]; try discriminate. destruct (openStream false c1) eqn:O1; [|discriminate]. intros [= <- <-].
    destruct (open_await c1 O1) as [H1 H2]. split; [|exact H2]. apply in_or_app. left. apply in_or_app. right. right. exact H1.
Qed.
Lemma stream_nowrite conn dials rs ev r c b : getStream conn dials rs = (ev, r) -> ~ In (Wrote c b) ev.
Proof.
  assert (A : forall c', ~ In (Wrote c b) (awaitReplaySafe rs c')) by (intros c'; unfold awaitReplaySafe; destruct rs; [intros []|]; destruct (qc_hs c'); intros [H|[]]; discriminate H).
  unfold getStream. set (start := match conn with Some c => _ | None => _ end).
  assert (S : match start with Some (ev0, _, _) => ~ In (Wrote c b) ev0 | None => True end).
  { subst start. destruct conn; [intros []|]. destruct dials as [|[c1|] d]; try exact I. intros [H|[]]. discriminate H. }
  destruct start as [[[ev0 c0] d0]|]; [|intros [= <- _] []]. cbv zeta.
  destruct (openStream rs c0).
  - intros [= <- _] H. in_cases H; first [destruct (S H)|exact (A _ H)].
  - destruct d0 as [|[c1|] d].
    + intros [= <- _] H. in_cases H; first [destruct (S H)|exact (A _ H)].
    + destruct (openStream rs c1); intros [= <- _] H; in_cases H; first [destruct (S H)|exact (A _ H)].
    + intros [= <- _] H. in_cases H; first [destruct (S H)|exact (A _ H)].
Qed.

Lemma filter_without_code k l : without (fun o => opt_code o = k) l (filter (fun x => negb (N.eqb (opt_code x) k)) l).
Proof.
  induction l as [|o l IH]; [constructor|]. cbn [filter]. destruct (N.eqb_spec (opt_code o) k) as [E|E]; cbn [negb]; [apply W_drop; assumption|apply W_keep; assumption].
Qed.
Lemma doq_query_spec q : opt_wf q -> quic_query q (doq_query q).
Proof.
  intros W. unfold quic_query, doq_query. cbv zeta. assert (E : is_edns0 (set_id 0 q) = is_edns0 q) by reflexivity. rewrite E.
  destruct (is_edns0_cases q) as [[N Z]|(pre & r & post & S & Z & U)]; rewrite Z; [left; split; [exact N|reflexivity]|right].
  destruct S as (Eq & T & F). split; [unfold no_edns0; rewrite Eq; intros N; apply Forall_app in N; destruct N as [_ N]; inversion N; contradiction|].
  assert (D : exists o, rr_data r = DOPT o) by (unfold opt_wf in W; rewrite Eq in W; apply Forall_app in W; destruct W as [_ W]; inversion W; auto).
  destruct D as [o D]. exists pre, r, post, o, (filter (fun x => negb (opt_code x =? 11)) o).
  split; [exact Eq|]. split; [exact T|]. split; [exact F|]. split; [exact D|]. split; [apply filter_without_code|].
  unfold opt_options. rewrite D. unfold update_edns0. f_equal.
  specialize (U (opt_set_options (filter (fun x => negb (opt_code x =? 11)) o))). unfold update_edns0 in U. apply (f_equal m_extra) in U. cbn [m_extra set_extra] in U. exact U.
Qed.
Lemma doq_query_opcode q : m_opcode (doq_query q) = m_opcode q.
Proof. unfold doq_query. cbv zeta. destruct (is_edns0 (set_id 0 q)); reflexivity. Qed.

Section Doq.
Variable unpack : bytes -> option msg.
Variable pack : msg -> option bytes.
Variable answer : qconn -> bytes -> option bytes.
Notation doq := (doq_resolve unpack pack answer).

Theorem doq_sent : (forall m p, pack m = Some p -> N.of_nat (length p) <= 65535) -> forall conn dials q c b, opt_wf q -> In (Wrote c b) (fst (doq conn dials q)) ->
  exists qc p, quic_query q qc /\ pack qc = Some p /\ framed p b /\ length b = (2 + length p)%nat.
Proof.
  intros PL conn dials q c b W. unfold doq_resolve. cbv zeta. destruct (pack (doq_query q)) as [p|] eqn:P; [|intros []].
  destruct (getStream conn dials _) as [ev st] eqn:G. pose proof (stream_nowrite _ _ _ _ _ c b G) as NW. destruct st as [c'|]; [|intros H; destruct (NW H)].
  intros H. assert (X : In (Wrote c b) (ev ++ [Wrote c' (frame p)])).
  { destruct (answer c' (frame p)) as [data|]; [|exact H]. destruct (read_frame data) as [r|]; [|exact H]. destruct (unpack r) as [a|]; [|exact H].
    destruct (negb _); [exact H|]. destruct (has_keepalive _); exact H. }
  apply in_app_or in X. destruct X as [X|[X|[]]]; [destruct (NW X)|]. injection X as <- <-.
  exists (doq_query q), p. split; [apply doq_query_spec, W|]. split; [exact P|]. pose proof (PL _ _ P). split; [apply frame_framed; lia|reflexivity].
Qed.

Theorem doq_answer : (forall b a, unpack b = Some a -> opt_wf a) -> forall conn dials q a, snd (doq conn dials q) = Ans a <->
  exists c b data p a0, In (Wrote c b) (fst (doq conn dials q)) /\ answer c b = Some data /\ framed p data /\ unpack p = Some a0 /\
    with_id (m_id q) a0 a /\ echoes q a /\ ~ keepalive a.
Proof.
  intros UW conn dials q a. assert (K : forall p a0, unpack p = Some a0 -> (has_keepalive (set_id (m_id q) a0) = true <-> keepalive (set_id (m_id q) a0))).
  { intros p a0 U. apply keepalive_iff. exact (UW p a0 U). }
  unfold doq_resolve. cbv zeta. destruct (pack (doq_query q)) as [p|] eqn:P; [|split; [discriminate|intros (? & ? & ? & ? & ? & [] & _)]].
  destruct (getStream conn dials _) as [ev st] eqn:G. destruct st as [c'|].
  2:{ split; [discriminate|]. intros (c & b & ? & ? & ? & H & _). destruct (stream_nowrite _ _ _ _ _ c b G H). }
  assert (ONE : forall c b, In (Wrote c b) (ev ++ [Wrote c' (frame p)]) -> c = c' /\ b = frame p).
  { intros c b H. apply in_app_or in H. destruct H as [H|[H|[]]]; [destruct (stream_nowrite _ _ _ _ _ c b G H)|]. injection H as <- <-. split; reflexivity. }
  assert (IN : In (Wrote c' (frame p)) (ev ++ [Wrote c' (frame p)])) by (apply in_or_app; right; left; reflexivity).
  assert (WI : forall a0, with_id (m_id q) a0 (set_id (m_id q) a0)) by (intros a0; split; [reflexivity|destruct a0; reflexivity]).
  assert (WU : forall a0 a1, with_id (m_id q) a0 a1 -> a1 = set_id (m_id q) a0).
  { intros a0 a1 [H1 H2]. rewrite <- H2, <- H1. destruct a1. reflexivity. }
  destruct (answer c' (frame p)) as [data|] eqn:A.
  2:{ split; [discriminate|]. intros (c & b & ? & ? & ? & H & E & _). apply ONE in H. destruct H as [-> ->]. congruence. }
  destruct (read_frame data) as [r|] eqn:R.
  2:{ split; [discriminate|]. intros (c & b & ? & ? & ? & H & E & F & _). apply ONE in H. destruct H as [-> ->]. rewrite A in E. injection E as <-. apply framed_read in F. congruence. }
  destruct (unpack r) as [a0|] eqn:U.
  2:{ split; [discriminate|]. intros (c & b & ? & ? & ? & H & E & F & U' & _). apply ONE in H. destruct H as [-> ->]. rewrite A in E. injection E as <-. apply framed_read in F. congruence. }
  assert (BACK : forall run : list cevent * result, fst run = ev ++ [Wrote c' (frame p)] ->
    (exists c b data p a0, In (Wrote c b) (fst run) /\ answer c b = Some data /\ framed p data /\ unpack p = Some a0 /\ with_id (m_id q) a0 a /\ echoes q a /\ ~ keepalive a) ->
    a = set_id (m_id q) a0 /\ echoes q a /\ ~ keepalive a).
  { intros run Er (c & b & d & p' & a1 & H & E & F & U' & Wd & Ec & Kp). rewrite Er in H. apply ONE in H. destruct H as [-> ->]. rewrite A in E. injection E as <-.
    apply framed_read in F. rewrite R in F. injection F as <-. rewrite U in U'. injection U' as <-. split; [apply WU, Wd|]. split; assumption. }
  destruct (validateResponseQuestion q (set_id (m_id q) a0)) eqn:V; cbn [negb].
  - destruct (has_keepalive (set_id (m_id q) a0)) eqn:KA.
    + split; [discriminate|]. intros H. apply BACK in H; [|reflexivity]. destruct H as (-> & _ & N). destruct N. apply (K r a0 U), KA.
    + split.
      * intros [= <-]. exists c', (frame p), data, r, a0. split; [exact IN|]. split; [exact A|]. split; [apply read_framed, R|]. split; [exact U|].
        split; [apply WI|]. split; [apply echoes_spec, V|]. intros N. apply (K r a0 U) in N. congruence.
      * intros H. apply BACK in H; [|reflexivity]. destruct H as (-> & _). reflexivity.
  - split; [discriminate|]. intros H. apply BACK in H; [|reflexivity]. destruct H as (-> & E & _). apply echoes_spec in E. congruence.
Qed.

Theorem doq_early conn dials q c b : ~ repeatable q -> In (Wrote c b) (fst (doq conn dials q)) ->
  exists pre post, fst (doq conn dials q) = pre ++ Wrote c b :: post /\ In (Completed c) pre /\ qc_hs c <> HsNever.
Proof.
  intros NR. unfold doq_resolve. cbv zeta. rewrite doq_query_opcode, (proj2 (not_repeatable q) NR). destruct (pack (doq_query q)) as [p|]; [|intros []].
  destruct (getStream conn dials false) as [ev st] eqn:G. pose proof (stream_nowrite _ _ _ _ _ c b G) as NW. destruct st as [c'|]; [|intros H; destruct (NW H)].
  apply stream_safe in G. destruct G as [G1 G2].
  assert (Y : forall run : list cevent * result, fst run = ev ++ [Wrote c' (frame p)] -> In (Wrote c b) (fst run) ->
    exists pre post, fst run = pre ++ Wrote c b :: post /\ In (Completed c) pre /\ qc_hs c <> HsNever).
  { intros run -> H. apply in_app_or in H. destruct H as [H|[H|[]]]; [destruct (NW H)|]. injection H as <- <-. exists ev, []. auto. }
  apply Y. destruct (answer c' (frame p)) as [data|]; [|reflexivity]. destruct (read_frame data) as [r|]; [|reflexivity]. destruct (unpack r) as [a|]; [|reflexivity].
  destruct (negb _); [reflexivity|]. destruct (has_keepalive _); reflexivity.
Qed.
(** The handshake of a connection whose end was awaited did not complete. *)
Theorem doq_completed conn dials q c : In (Completed c) (fst (doq conn dials q)) -> qc_hs c <> HsNever.
Proof.
  unfold doq_resolve. cbv zeta. destruct (pack (doq_query q)) as [p|]; [|intros []]. set (rs := isReplayableOpcode _).
  destruct (getStream conn dials rs) as [ev st] eqn:G.
  assert (C : In (Completed c) ev -> qc_hs c <> HsNever).
  { revert G. unfold getStream. set (start := match conn with Some c => _ | None => _ end).
    assert (S : match start with Some (ev0, _, _) => ~ In (Completed c) ev0 | None => True end).
    { subst start. destruct conn; [intros []|]. destruct dials as [|[c1|] d]; try exact I. intros [H|[]]. discriminate H. }
    assert (A : forall c', In (Completed c) (awaitReplaySafe rs c') -> qc_hs c <> HsNever) by (intros c' H; destruct (await_completed _ _ _ H) as [-> H2]; exact H2).
    destruct start as [[[ev0 c0] d0]|]; [|intros [= <- _] []]. cbv zeta. destruct (openStream rs c0).
    - intros [= <- _] H. in_cases H; first [destruct (S H)|exact (A _ H)].
    - destruct d0 as [|[c1|] d].
      + intros [= <- _] H. in_cases H; first [destruct (S H)|exact (A _ H)].
      + destruct (openStream rs c1); intros [= <- _] H; in_cases H; first [destruct (S H)|exact (A _ H)].
      + intros [= <- _] H. in_cases H; first [destruct (S H)|exact (A _ H)]. }
  destruct st as [c'|]; [|exact C].
  assert (Y : forall run : list cevent * result, fst run = ev ++ [Wrote c' (frame p)] -> In (Completed c) (fst run) -> qc_hs c <> HsNever).
  { intros run -> H. apply in_app_or in H. destruct H as [H|[H|[]]]; [exact (C H)|discriminate H]. }
  apply Y. destruct (answer c' (frame p)) as [data|]; [|reflexivity]. destruct (read_frame data) as [r|]; [|reflexivity]. destruct (unpack r) as [a|]; [|reflexivity].
  destruct (negb _); [reflexivity|]. destruct (has_keepalive _); reflexivity.
Qed.
End Doq.

(** *** Sizes *)
Lemma sized_spec size q : sized size q (setUDPSize q size).
Proof.
  unfold sized, setUDPSize. destruct (N.eqb_spec size 0) as [->|NZ]; [left; split; reflexivity|right].
  destruct (is_edns0_cases q) as [[N Z]|(pre & r & post & (E & T & F) & Z & U)]; rewrite Z.
  - left. split; [exact NZ|]. split; [exact N|]. split; [exact N|]. reflexivity.
  - right. split; [exact NZ|]. exists pre, r, post. rewrite U. repeat (split; [assumption|]). reflexivity.
Qed.
