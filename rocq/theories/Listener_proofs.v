From Verif Require Import Base Base_proofs Bytes Dns Net Cidr_model Cidr_spec Net_spec Net_proofs Modifiers_model Modifiers_spec Modifiers_proofs Modifiers_proofs2 Router_model Router_spec Router_proofs Listener_model Listener_spec.
Local Open Scope N_scope.

(** *** Access control *)
Section Acl.
Variable parseAddr : string -> option bytes.
Hypothesis PO : parse_ok parseAddr.

Lemma allowed_spec nets l x : parseCIDRList parseAddr nets = Some l -> x = [] \/ ip_ok x ->
  (isAllowed l x = true <-> allowed parseAddr nets x).
Proof.
  intros H O. apply all_some_spec in H. unfold isAllowed, allowed. destruct l as [|n l].
  - inversion H; subst. split; [left; reflexivity|reflexivity].
  - rewrite existsb_exists. split.
    + intros (n' & I & E). right. destruct (forall2_exists _ _ _ H n' I) as (s & Is & Es).
      apply (has_net parseAddr PO s n' x Es O) in E. destruct E as (a & p & T & N & Hh). exists s, a, p. tauto.
    + intros [->|(s & a & p & I & T & N & Hh)]; [inversion H|]. destruct (forall2_in _ _ _ H s I) as (n' & I' & E').
      exists n'. split; [exact I'|]. apply (has_net parseAddr PO s n' x E' O). exists a, p. tauto.
Qed.
Lemma allowed_false nets l x : parseCIDRList parseAddr nets = Some l -> x = [] \/ ip_ok x ->
  ~ allowed parseAddr nets x -> isAllowed l x = false.
Proof. intros H O N. destruct (isAllowed l x) eqn:E; [|reflexivity]. destruct N. exact (proj1 (allowed_spec _ _ _ H O) E). Qed.
End Acl.

(** *** Replies *)
Lemma error_reply_rcode q code : m_question q <> [] -> error_reply q code (set_rcode empty_msg q code).
Proof.
  intros H. unfold error_reply, set_rcode, set_reply, set_rcode_field. cbn [m_id m_response m_opcode m_rcode m_aa m_tc m_ad m_question m_answer m_ns m_extra empty_msg].
  destruct (m_question q) as [|x l]; [destruct H; reflexivity|]. repeat split; reflexivity.
Qed.
Lemma error_reply_servfail q : m_question q <> [] -> error_reply q 2 (servfail q).
Proof.
  intros H. unfold error_reply, servfail, responseWithCode, set_ra, set_rcode, set_reply, set_rcode_field. cbn [m_id m_response m_opcode m_rcode m_aa m_tc m_ad m_question m_answer m_ns m_extra empty_msg].
  destruct (m_question q) as [|x l]; [destruct H; reflexivity|]. repeat split; reflexivity.
Qed.
Lemma error_paddable q code a : error_reply q code a -> paddable a.
Proof. intros H. unfold error_reply in H. unfold paddable, opt_wf. destruct H as (_ & _ & _ & _ & _ & _ & _ & _ & _ & _ & ->). split; [constructor|]. intros r o I. destruct I. Qed.
Lemma outcome_paddable q r a : outcome q r a -> (forall a, r = Ans a -> paddable a) -> paddable a.
Proof. destruct r as [m| |e]; cbn [outcome]; intros H P; [subst; apply P; reflexivity|destruct H|apply (error_paddable _ _ _ H)]. Qed.

Lemma no_edns0_dec m : no_edns0 m \/ ~ no_edns0 m.
Proof.
  destruct (is_edns0_cases m) as [[N _]|(pre & r & post & S & _ & _)]; [left; exact N|right]. intros N.
  destruct S as (E & T & _). unfold no_edns0 in N. rewrite E in N. apply Forall_app in N. destruct N as [_ N]. inversion N. contradiction.
Qed.
Lemma strip_spec m : opt_wf m -> stripped m (stripPadding m).
Proof.
  intros W. destruct (strip_padding m W) as [A B]. unfold stripped. destruct (no_edns0_dec m) as [N|N]; [left; split; [exact N|exact (A N)]|right; split; [exact N|exact (B N)]].
Qed.

Lemma limit_spec q : limit q (match is_edns0 q with Some o => opt_udpsize o | None => 512 end).
Proof.
  unfold limit. destruct (is_edns0_cases q) as [[N ->]|(pre & r & post & S & -> & _)]; [left; split; [exact N|reflexivity]|right].
  destruct S as (E & T & F). exists pre, r, post. repeat split; assumption.
Qed.

Section Pad.
Variable base : msg -> N.
Variable optlen : edns0 -> N.
Hypothesis OL : forall d, optlen (PADDING d) = 4 + N.of_nat (length d).
Lemma pad_spec q a : opt_wf q -> paddable a -> exists m, padAnswer base optlen q a = Some m /\ padded q a m.
Proof.
  intros W [Wa P]. destruct (padAnswer base optlen q a) as [m|] eqn:E.
  - exists m. split; [reflexivity|]. destruct (pad_answer base optlen OL q a m W Wa E) as [A B]. unfold padded.
    destruct (is_edns0_cases q) as [[N _]|(pre & r & post & S & _ & _)]; [left; split; [exact N|exact (A N)]|right].
    destruct S as (Eq & T & F). split.
    + unfold no_edns0. rewrite Eq. intros N. apply Forall_app in N. destruct N as [_ N]. inversion N. contradiction.
    + destruct (B pre r post Eq T F) as (n & _ & _ & _ & H). exists n. destruct H as [H|(opts & H1 & H2)]; [left; exact H|right].
      exists (rr_class r), (if N.testbit (rr_ttl r) 15 then 2 ^ 15 else 0), opts. split; assumption.
  - exfalso. destruct (pad_answer_total base optlen q a W Wa E) as (pre & r & post & opts & Eq & T & F & D & N).
    apply N. apply (P r); [|exact D]. rewrite Eq. apply in_or_app. right. left. reflexivity.
Qed.

Lemma secure_in p : (String.eqb p "dot" || String.eqb p "dtls")%bool = true <-> In p ["dot"; "dtls"]%string.
Proof. cbn [In]. rewrite orb_true_iff, !String.eqb_eq. intuition congruence. Qed.
Lemma udp_in p : (String.eqb p "udp" || String.eqb p "dtls")%bool = true <-> In p ["udp"; "dtls"]%string.
Proof. cbn [In]. rewrite orb_true_iff, !String.eqb_eq. intuition congruence. Qed.

Lemma deliver truncate protocol q a : opt_wf q -> paddable a ->
  exists p, (if String.eqb protocol "dot" || String.eqb protocol "dtls" then padAnswer base optlen q a else Some (stripPadding a)) = Some p /\
    delivered truncate protocol q a (if String.eqb protocol "udp" || String.eqb protocol "dtls" then truncate (match is_edns0 q with Some o => opt_udpsize o | None => 512 end) p else p).
Proof.
  intros W P. pose proof (secure_in protocol) as S. pose proof (udp_in protocol) as U.
  destruct (String.eqb protocol "dot" || String.eqb protocol "dtls")%bool.
  - destruct (pad_spec q a W P) as (p & E & Hp). exists p. split; [exact E|]. exists p.
    split; [intros _; exact Hp|]. split; [intros N; destruct N; apply S; reflexivity|].
    destruct (String.eqb protocol "udp" || String.eqb protocol "dtls")%bool; (split; [intros I|intros N]).
    + exists (match is_edns0 q with Some o => opt_udpsize o | None => 512 end). split; [apply limit_spec|reflexivity].
    + destruct N. apply U. reflexivity.
    + apply U in I. discriminate I.
    + reflexivity.
  - exists (stripPadding a). split; [reflexivity|]. exists (stripPadding a).
    split; [intros I; apply S in I; discriminate I|]. split; [intros _; exact (strip_spec a (proj1 P))|].
    destruct (String.eqb protocol "udp" || String.eqb protocol "dtls")%bool; (split; [intros I|intros N]).
    + exists (match is_edns0 q with Some o => opt_udpsize o | None => 512 end). split; [apply limit_spec|reflexivity].
    + destruct N. apply U. reflexivity.
    + apply U in I. discriminate I.
    + reflexivity.
Qed.

(** *** listenHandler *)
Section Dns.
Variable resolve : msg -> client -> result.
Variable truncate : N -> msg -> msg.
Notation handler := (listenHandler resolve base optlen truncate).

Lemma dns_noquestion id protocol nets src tls q : m_question q = [] -> handler id protocol nets src tls q = ([], Silent).
Proof. unfold listenHandler. intros ->. reflexivity. Qed.

Lemma dns_allowed id protocol nets src tls q : m_question q <> [] -> isAllowed nets src = true -> opt_wf q ->
  let ci := Client src "" tls id in (forall a, resolve q ci = Ans a -> paddable a) ->
  (resolve q ci = Drop -> handler id protocol nets src tls q = ([Call q ci], Closed)) /\
  (resolve q ci <> Drop -> exists a m, outcome q (resolve q ci) a /\ delivered truncate protocol q a m /\
     handler id protocol nets src tls q = ([Call q ci], Written m)).
Proof.
  intros Hq A W ci P. unfold listenHandler. destruct (m_question q) as [|x l] eqn:Eq; [destruct Hq; reflexivity|]. rewrite A. fold ci. cbv zeta. split.
  - intros ->. reflexivity.
  - intros ND. assert (X : exists a, outcome q (resolve q ci) a /\ match resolve q ci with Ans a => Some a | Drop => None | Err _ => Some (servfail q) end = Some a).
    { destruct (resolve q ci) as [a| |e]; [exists a; split; reflexivity|destruct ND; reflexivity|].
      exists (servfail q). split; [|reflexivity]. apply error_reply_servfail. rewrite Eq. discriminate. }
    destruct X as (a & O & ->). destruct (deliver truncate protocol q a W (outcome_paddable _ _ _ O P)) as (p & -> & D).
    eexists. eexists. split; [exact O|]. split; [exact D|reflexivity].
Qed.

Lemma dns_refused id protocol nets src tls q : m_question q <> [] -> isAllowed nets src = false -> opt_wf q ->
  exists a m, error_reply q 5 a /\ delivered truncate protocol q a m /\ handler id protocol nets src tls q = ([], Written m).
Proof.
  intros Hq A W. unfold listenHandler. destruct (m_question q) as [|x l] eqn:Eq; [destruct Hq; reflexivity|]. rewrite A. cbv zeta.
  assert (O : error_reply q 5 (set_rcode empty_msg q RcodeRefused)) by (apply error_reply_rcode; rewrite Eq; discriminate).
  destruct (deliver truncate protocol q _ W (error_paddable _ _ _ O)) as (p & -> & D).
  eexists. eexists. split; [exact O|]. split; [exact D|reflexivity].
Qed.
End Dns.

(** *** DoH *)
Section Doh.
Variable resolve : msg -> client -> result.
Variable unpack : bytes -> option msg.
Variable pack : msg -> option bytes.
Variable splitHost : string -> string.
Variable parseIP : string -> bytes.
Notation respond := (parseAndRespond resolve base optlen unpack pack splitHost parseIP).
Notation address := (extractClientAddress splitHost parseIP).

Definition tls_name (r : httpreq) : string := match h_tls r with Some (_, n) => n | None => "" end.

(** The checks before the resolver *)
Lemma doh_bad o b r : (unpack b = None -> respond o b r = ([], Status 400)) /\
  (forall q, unpack b = Some q ->
    (m_question q = [] -> respond o b r = ([], Status 400)) /\
    (m_question q <> [] -> early r -> isReplayableOpcode (m_opcode q) = false -> respond o b r = ([], Status 425)) /\
    (m_question q <> [] -> ~ (early r /\ isReplayableOpcode (m_opcode q) = false) -> address (do_proxy o) r = [] -> respond o b r = ([], Status 400))).
Proof.
  unfold parseAndRespond. split; [intros ->; reflexivity|]. intros q ->. destruct (m_question q) as [|x l] eqn:Eq; (split; [|split]); intros H; try discriminate; try (destruct H; reflexivity); try reflexivity.
  - intros [n ->] ->. reflexivity.
  - intros N ->. destruct ((match h_tls r with Some (done, _) => negb done | None => false end) && negb (isReplayableOpcode (m_opcode q)))%bool eqn:E; [|reflexivity].
    exfalso. apply N. apply andb_true_iff in E. destruct E as [E1 E2]. unfold early. destruct (h_tls r) as [[[|] n]|]; try discriminate E1.
    split; [exists n; reflexivity|]. destruct (isReplayableOpcode (m_opcode q)); [discriminate E2|reflexivity].
Qed.

Lemma doh_checks o b r q : unpack b = Some q -> m_question q <> [] -> ~ (early r /\ isReplayableOpcode (m_opcode q) = false) -> address (do_proxy o) r <> [] ->
  let ip := address (do_proxy o) r in let ci := Client ip (h_path r) (tls_name r) (do_id o) in
  respond o b r =
   let '(calls, a) := if isAllowed (do_allowed o) ip
            then ([Call q ci], match resolve q ci with Ans a => Some a | Drop => None | Err _ => Some (set_rcode empty_msg q RcodeServerFailure) end)
            else ([], Some (set_rcode empty_msg q RcodeRefused)) in
          match a with
          | None => (calls, Status 403)
          | Some a =>
              match padAnswer base optlen q a with
              | None => (calls, Crash)
              | Some a => match pack a with None => (calls, Status 500) | Some out => (calls, Body out) end
              end
          end.
Proof.
  intros U Hq N Hip ip ci. unfold parseAndRespond. rewrite U. destruct (m_question q) as [|x l] eqn:Eq; [destruct Hq; reflexivity|].
  assert (X : ((match h_tls r with Some (done, _) => negb done | None => false end) && negb (isReplayableOpcode (m_opcode q)))%bool = false).
  { destruct (isReplayableOpcode (m_opcode q)); [apply andb_false_r|]. rewrite andb_true_r. destruct (h_tls r) as [[[|] n]|] eqn:E; try reflexivity.
    destruct N. split; [exists n; exact E|reflexivity]. }
  rewrite X. cbv zeta. fold ip. assert (Z : is_nil ip = false) by (subst ip; destruct (address (do_proxy o) r); [destruct Hip; reflexivity|reflexivity]). rewrite Z. reflexivity.
Qed.

Definition packs (m : msg) (out : lout) : Prop := match pack m with Some b => out = Body b | None => out = Status 500 end.

Lemma doh_allowed o b r q : unpack b = Some q -> m_question q <> [] -> ~ (early r /\ isReplayableOpcode (m_opcode q) = false) -> address (do_proxy o) r <> [] ->
  isAllowed (do_allowed o) (address (do_proxy o) r) = true -> opt_wf q ->
  let ci := Client (address (do_proxy o) r) (h_path r) (tls_name r) (do_id o) in (forall a, resolve q ci = Ans a -> paddable a) ->
  (resolve q ci = Drop -> respond o b r = ([Call q ci], Status 403)) /\
  (resolve q ci <> Drop -> exists a m out, outcome q (resolve q ci) a /\ padded q a m /\ packs m out /\ respond o b r = ([Call q ci], out)).
Proof.
  intros U Hq N Hip A W ci P. rewrite (doh_checks o b r q U Hq N Hip). cbv zeta. rewrite A. fold ci. split; [intros ->; reflexivity|].
  intros ND. assert (X : exists a, outcome q (resolve q ci) a /\ match resolve q ci with Ans a => Some a | Drop => None | Err _ => Some (set_rcode empty_msg q RcodeServerFailure) end = Some a).
  { destruct (resolve q ci) as [a| |e]; [exists a; split; reflexivity|destruct ND; reflexivity|].
    eexists. split; [|reflexivity]. apply error_reply_rcode, Hq. }
  destruct X as (a & O & ->). destruct (pad_spec q a W (outcome_paddable _ _ _ O P)) as (m & -> & D).
  exists a, m. unfold packs. destruct (pack m); eexists; (split; [exact O|]; split; [exact D|]; split; reflexivity).
Qed.
Lemma doh_refused o b r q : unpack b = Some q -> m_question q <> [] -> ~ (early r /\ isReplayableOpcode (m_opcode q) = false) -> address (do_proxy o) r <> [] ->
  isAllowed (do_allowed o) (address (do_proxy o) r) = false -> opt_wf q ->
  exists a m out, error_reply q 5 a /\ padded q a m /\ packs m out /\ respond o b r = ([], out).
Proof.
  intros U Hq N Hip A W. rewrite (doh_checks o b r q U Hq N Hip). cbv zeta. rewrite A.
  assert (O : error_reply q 5 (set_rcode empty_msg q RcodeRefused)) by (apply error_reply_rcode, Hq).
  destruct (pad_spec q _ W (error_paddable _ _ _ O)) as (m & -> & D).
  eexists. exists m. unfold packs. destruct (pack m); eexists; (split; [exact O|]; split; [exact D|]; split; reflexivity).
Qed.

(** Never called for an address outside *)
Lemma doh_calls o b r q ci : In (Call q ci) (fst (respond o b r)) ->
  unpack b = Some q /\ m_question q <> [] /\ ~ (early r /\ isReplayableOpcode (m_opcode q) = false) /\
  ci = Client (address (do_proxy o) r) (h_path r) (tls_name r) (do_id o) /\ address (do_proxy o) r <> [] /\ isAllowed (do_allowed o) (address (do_proxy o) r) = true.
Proof.
  destruct (unpack b) as [q'|] eqn:U; [|unfold parseAndRespond; rewrite U; intros []].
  destruct (m_question q') as [|x l] eqn:Eq; [unfold parseAndRespond; rewrite U, Eq; intros []|].
  assert (Hq : m_question q' <> []) by (rewrite Eq; discriminate).
  assert (D : (early r /\ isReplayableOpcode (m_opcode q') = false) \/ ~ (early r /\ isReplayableOpcode (m_opcode q') = false)).
  { unfold early. destruct (isReplayableOpcode (m_opcode q')); [right; intros [_ H]; discriminate H|]. destruct (h_tls r) as [[[|] n]|].
    - right. intros [[n' H] _]. discriminate H.
    - left. split; [exists n|]; reflexivity.
    - right. intros [[n' H] _]. discriminate H. }
  destruct D as [[D1 D2]|N].
  { destruct (doh_bad o b r) as [_ H]. destruct (H q' U) as (_ & H2 & _). rewrite (H2 Hq D1 D2). intros []. }
  destruct (address (do_proxy o) r) as [|y ip] eqn:E.
  { destruct (doh_bad o b r) as [_ H]. destruct (H q' U) as (_ & _ & H3). rewrite (H3 Hq N E). intros []. }
  assert (Hip : address (do_proxy o) r <> []) by (rewrite E; discriminate).
  rewrite (doh_checks o b r q' U Hq N Hip). cbv zeta. rewrite E. destruct (isAllowed (do_allowed o) (y :: ip)).
  - intros I. assert (X : Call q ci = Call q' (Client (y :: ip) (h_path r) (tls_name r) (do_id o))).
    { destruct (resolve q' _) as [a| |e]; cbn [fst] in I; try (destruct (padAnswer base optlen q' _) as [m|]; [destruct (pack m)|]); cbn [fst In] in I; destruct I as [I|[]]; symmetry; exact I. }
    injection X as -> ->. repeat split; try assumption; try discriminate; reflexivity.
  - intros I. exfalso. destruct (padAnswer base optlen q' _) as [m|]; [destruct (pack m)|]; destruct I.
Qed.
End Doh.
End Pad.
