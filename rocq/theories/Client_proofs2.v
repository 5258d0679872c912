From Verif Require Import Base Bytes Dns Modifiers_model Modifiers_spec Modifiers_proofs Listener_model Listener_spec Listener_proofs Listener_proofs2 Listener_proofs3 Client_model Client_spec Client_proofs.
Local Open Scope N_scope.

Lemma doh_server_early resolve base optlen unpack pack base64dec splitHost parseIP o r q ci :
  In (Call q ci) (fst (dohHandler resolve base optlen unpack pack base64dec splitHost parseIP o r)) -> early r -> repeatable q.
Proof.
  intros I [n E]. assert (P : forall b, In (Call q ci) (fst (parseAndRespond resolve base optlen unpack pack splitHost parseIP o b r)) -> repeatable q).
  { intros b. unfold parseAndRespond. destruct (unpack b) as [q'|]; [|intros []]. destruct (m_question q'); [intros []|]. rewrite E. cbn [negb andb].
    destruct (isReplayableOpcode (m_opcode q')) eqn:R; cbn [negb andb]; [|intros []]. cbv zeta. destruct (is_nil _); [intros []|].
    apply repeatable_spec in R. intros H.
    repeat match type of H with In _ (fst (let _ := _ in _)) => cbv zeta in H | In _ (fst (if ?b then _ else _)) => destruct b | In _ (fst (match ?x with _ => _ end)) => lazymatch x with (if ?b then _ else _) => destruct b | _ => destruct x end | In _ (fst (_, _)) => cbn [fst] in H end;
    repeat match type of H with In _ (_ :: _) => destruct H as [H|H] | In _ [] => destruct H | False => destruct H end; try discriminate H; injection H as <- <-; exact R. }
  unfold dohHandler in I. repeat match type of I with In _ (fst (if ?b then _ else _)) => destruct b end.
  - unfold getHandler in I. destruct (h_dns r) as [|s l]; [destruct I|]. destruct (base64dec s) as [b|]; [exact (P b I)|destruct I].
  - unfold postHandler in I. cbv zeta in I. repeat match type of I with In _ (fst (if ?b then _ else _)) => destruct b | In _ (fst (match ?x with _ => _ end)) => destruct x end; first [destruct I; fail|exact (P _ I)].
  - destruct I.
Qed.
Lemma doq_server_early resolve unpack pack ci hs data q ci' :
  In (Call q ci') (fst (handleStream resolve unpack pack ci hs data)) -> ~ repeatable q ->
  hs <> HsNever /\ fst (handleStream resolve unpack pack ci hs data) = [Handshake; Call q ci].
Proof.
  intros I N. apply doq_calls in I. destruct I as (b & _ & _ & _ & _ & H & _ & E). rewrite E. apply not_repeatable in N. unfold waits, held in *. rewrite N in *.
  split; [|reflexivity]. intros ->. apply H. split; reflexivity.
Qed.
Lemma doq_query_keepalive unpack : (forall b q, unpack b = Some q -> opt_wf q) ->
  forall resolve pack ci hs data q ci', In (Call q ci') (fst (handleStream resolve unpack pack ci hs data)) -> ~ keepalive q /\ ci' = ci.
Proof.
  intros W resolve pack ci hs data q ci' I. apply doq_calls in I. destruct I as (b & _ & U & _ & K & _ & E & _). split; [|exact E].
  intros H. apply (keepalive_iff q (W b q U)) in H. congruence.
Qed.

Section Doq.
Variable unpack : bytes -> option msg.
Variable pack : msg -> option bytes.
Variable answer : qconn -> bytes -> option bytes.
Notation doq := (doq_resolve unpack pack answer).
Definition is_write (e : cevent) : bool := match e with Wrote _ _ => true | _ => false end.
Lemma no_writes ev : (forall c b, ~ In (Wrote c b) ev) -> filter is_write ev = [].
Proof.
  induction ev as [|e ev IH]; intros H; [reflexivity|]. cbn [filter]. destruct e; cbn [is_write]; try (apply IH; intros c' b' I; exact (H c' b' (or_intror I))).
  destruct (H c b (or_introl eq_refl)).
Qed.
Lemma doq_once conn dials q : (length (filter is_write (fst (doq conn dials q))) <= 1)%nat.
Proof.
  unfold doq_resolve. cbv zeta. destruct (pack (doq_query q)) as [p|]; [|cbn; lia]. destruct (getStream conn dials _) as [ev st] eqn:G.
  assert (Z : filter is_write ev = []) by (apply no_writes; intros c b; exact (stream_nowrite _ _ _ _ _ c b G)).
  destruct st as [c|]; [|cbn [fst]; rewrite Z; cbn; lia].
  assert (Y : forall run : list cevent * result, fst run = ev ++ [Wrote c (frame p)] -> (length (filter is_write (fst run)) <= 1)%nat).
  { intros run ->. rewrite filter_app, Z. cbn. lia. }
  apply Y. destruct (answer c (frame p)) as [data|]; [|reflexivity]. destruct (read_frame data) as [r|]; [|reflexivity]. destruct (unpack r) as [a|]; [|reflexivity].
  destruct (negb _); [reflexivity|]. destruct (has_keepalive _); reflexivity.
Qed.
Lemma doq_reply_id : (forall b a, unpack b = Some a -> opt_wf a) -> forall conn dials q a, snd (doq conn dials q) = Ans a -> m_id a = m_id q /\ ~ keepalive a.
Proof.
  intros UW conn dials q a H. apply doq_answer in H; [|exact UW]. destruct H as (c & b & d & p & a0 & _ & _ & _ & _ & [I _] & _ & K). split; assumption.
Qed.
End Doq.

Lemma client_body base optlen unpack pack base64 expand http encrypt decrypt config with_target o q a :
  (snd (doh_resolve base optlen unpack pack base64 expand http o q) = Ans a \/
   snd (odoh_resolve unpack pack base64 expand http encrypt decrypt config with_target o q) = Ans a) ->
  exists req r, http req = Some r /\ hr_broken r = false /\ N.of_nat (length (hr_body r)) <= 66047 /\
    (unpack (hr_body r) = Some a \/ exists d, decrypt (hr_body r) = Some d /\ unpack d = Some a).
Proof.
  intros [H|H].
  - apply doh_answer in H. destruct H as (req & r & b & _ & Hr & (_ & Br & <- & L) & U & _). exists req, r. auto.
  - apply odoh_answer in H. destruct H as (req & r & b & d & _ & Hr & (_ & Br & <- & L) & _ & D & U & _). exists req, r. split; [exact Hr|]. split; [exact Br|]. split; [exact L|]. right. exists d. auto.
Qed.

Lemma sized_wf size q m : sized size q m -> opt_wf q -> opt_wf m.
Proof.
  unfold sized, opt_wf. intros [[_ ->]|[(_ & _ & N)|(_ & pre & r & post & E & T & F & ->)]] W; [exact W| |].
  - destruct N as [_ ->]. cbn [m_extra set_extra]. apply Forall_app. split; [exact W|]. constructor; [|constructor]. intros _. eexists. reflexivity.
  - cbn [m_extra set_extra]. rewrite E in W. apply Forall_app in W. destruct W as [W1 W2]. apply Forall_app. split; [exact W1|]. inversion W2 as [|? ? W3 W4]; subst. constructor; [exact W3|exact W4].
Qed.
Lemma plain_query size q : opt_wf q -> exists m, sized size q m /\ stripped m (dns_query size q).
Proof. intros W. exists (setUDPSize q size). pose proof (sized_spec size q) as S. split; [exact S|]. apply strip_spec. exact (sized_wf _ _ _ S W). Qed.
Lemma tls_padded base optlen : (forall d, optlen (PADDING d) = 4 + N.of_nat (length d)) ->
  forall size q q', opt_wf q -> tls_query base optlen size q = Some q' ->
  exists m, sized size q m /\ (no_edns0 m -> q' = m) /\
    (~ no_edns0 m -> msg_len base optlen q' mod 128 = 0 /\ exists n, 0 < n <= 128 /\ opt_edit (repadded n) m q').
Proof.
  intros P size q q' W H. exists (setUDPSize q size). pose proof (sized_spec size q) as S. split; [exact S|]. exact (pad_query base optlen P _ _ (sized_wf _ _ _ S W) H).
Qed.
