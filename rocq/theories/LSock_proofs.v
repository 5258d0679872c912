From Verif Require Import Base Bytes Net Router_model Addr_model Addr_spec Addr_proofs RunNs_model XDial_model XDial_spec XDial_proofs LSock_model LSock_spec.
Local Open Scope string_scope.

Section P.
Variable resolveUDP : string -> option (bytes * Z).
Variable parseIP : string -> bytes.
Notation LS := (listener_socket resolveUDP parseIP).

Lemma opts_same a b : options a = options b <-> a = b.
Proof.
  split; [|intros ->; reflexivity]. destruct a as [m i], b as [m' i']. unfold options. cbn [o_mark o_bind].
  destruct (N.eqb_spec m 0) as [->|N1], (N.eqb_spec m' 0) as [->|N2], (String.eqb_spec i "") as [->|K1], (String.eqb_spec i' "") as [->|K2]; cbn; intros E; congruence.
Qed.
Lemma inactive o : active o = false -> options o = [].
Proof.
  unfold active, options. intros E. apply orb_false_iff in E. destruct E as (A & B). apply negb_false_iff in B. rewrite B.
  destruct (N.eqb_spec (o_mark o) 0); [reflexivity|]. apply N.ltb_ge in A. lia.
Qed.
Lemma build_ok n x ns : buildNetNS n x = Some ns ->
  (n = "" /\ x = "" /\ ns = None) \/ (n <> "" /\ x = "" /\ ns = Some (NetNS n "")) \/ (n = "" /\ x <> "" /\ ns = Some (NetNS "" x)).
Proof.
  unfold buildNetNS. destruct (String.eqb_spec n "") as [->|N1], (String.eqb_spec x "") as [->|N2]; cbn; intros E; try discriminate; injection E as <-; auto 6.
Qed.
Lemma listen_ok l ns t net a o : buildNetNS (c_netns l) (c_xsocket l) = Some ns ->
  exists p, at_place l p /\ listenInNetNS t ns net a o = Some (Sock p t net a o) /\ (c_xsocket l = "" -> run_place ns = Some p) /\ (c_xsocket l <> "" -> run_place ns = None).
Proof.
  intros B. apply build_ok in B. unfold at_place, listenInNetNS, run_place, how_to_run, usesXSocket.
  destruct B as [(A1 & A2 & ->)|[(A1 & A2 & ->)|(A1 & A2 & ->)]]; cbn [ns_xsocket ns_name].
  - exists Here. rewrite A2. repeat split; auto; congruence.
  - exists (InNs (c_netns l)). cbn. apply String.eqb_neq in A1 as A1'. rewrite A1'. repeat split; auto; congruence.
  - exists (XSock (c_xsocket l)). apply String.eqb_neq in A2 as A2'. rewrite A2'. cbn. repeat split; auto; congruence.
Qed.
Lemma isset l ns : buildNetNS (c_netns l) (c_xsocket l) = Some ns -> isSet ns = false -> c_netns l = "" /\ c_xsocket l = "".
Proof.
  intros B. apply build_ok in B. destruct B as [(A1 & A2 & ->)|[(A1 & A2 & ->)|(A1 & A2 & ->)]]; cbn; [auto| |].
  - apply String.eqb_neq in A1. rewrite A1. discriminate.
  - apply String.eqb_neq in A2. rewrite A2. discriminate.
Qed.
Lemma ls_valid p l s : LS p l = Some s -> valid l /\ exists ns, buildNetNS (c_netns l) (c_xsocket l) = Some ns.
Proof.
  unfold listener_socket, valid. destruct (N.eqb_spec (c_ipv l) 4), (N.eqb_spec (c_ipv l) 6), (N.eqb_spec (c_ipv l) 0); cbn [negb andb]; try discriminate.
  all: destruct (buildNetNS (c_netns l) (c_xsocket l)) as [ns|] eqn:B; [|discriminate]; intros _; split; [split; [auto|]|eauto].
  all: apply build_ok in B; destruct B as [(A1 & A2 & _)|[(A1 & A2 & _)|(A1 & A2 & _)]]; auto.
Qed.
Lemma valid_build l : valid l -> exists ns, buildNetNS (c_netns l) (c_xsocket l) = Some ns /\
  (forall p, LS p l = match p with
      | PTcp => dns_start (networkForIPVersion "tcp" (c_ipv l)) (c_addr l) ns (c_opts l)
      | PUdp => dns_start (networkForIPVersion "udp" (c_ipv l)) (c_addr l) ns (c_opts l)
      | PDot => dot_start (networkForIPVersion "tcp" (c_ipv l)) (c_addr l) ns (c_opts l)
      | PDtls => dtls_start parseIP (c_addr l) ns
      | PDoq => quic_start resolveUDP (c_addr l) ns (c_opts l)
      | POdoh => http_start (c_addr l) ns (c_opts l)
      | PAdmin | PDoh => if c_quic l then quic_start resolveUDP (c_addr l) ns (c_opts l) else http_start (c_addr l) ns (c_opts l)
      end).
Proof.
  intros (V & W). assert (B : exists ns, buildNetNS (c_netns l) (c_xsocket l) = Some ns).
  { unfold buildNetNS. destruct W as [->| ->]; cbn; [destruct (String.eqb (c_xsocket l) "")|rewrite ?andb_false_r, ?andb_true_r; destruct (String.eqb (c_netns l) "")]; cbn; eauto. }
  destruct B as (ns & B). exists ns. split; [exact B|]. intros p. unfold listener_socket. rewrite B. destruct V as [->|[->| ->]]; reflexivity.
Qed.
(** Networks of the plain listeners *)
Lemma vers_cases v : (v = 0 \/ v = 4 \/ v = 6)%N -> forall b, (b = "tcp" \/ b = "udp") ->
  one_version (networkForIPVersion b v) v /\ prefix b (networkForIPVersion b v) = true.
Proof.
  assert (X : forall s c, ends s (String c "") -> last_char s = Some c) by (intros s c H; apply last_ends, H).
  intros [->|[->| ->]] b [->| ->]; (split; [|reflexivity]); unfold one_version.
  1, 2: right; right; split; [reflexivity|]; split; intros E; apply X in E; discriminate.
  1: left; split; [reflexivity|exists "tcp"; reflexivity].
  1: left; split; [reflexivity|exists "udp"; reflexivity].
  1: right; left; split; [reflexivity|exists "tcp"; reflexivity].
  1: right; left; split; [reflexivity|exists "udp"; reflexivity].
Qed.
Lemma here l ns : buildNetNS (c_netns l) (c_xsocket l) = Some ns -> isSet ns = false -> at_place l Here.
Proof. intros B I. left. destruct (isset _ _ B I). auto. Qed.
Lemma plain_ok l : valid l -> (exists s, LS PTcp l = Some s /\ plain_sock l Stream s) /\ (exists s, LS PUdp l = Some s /\ plain_sock l Dgram s).
Proof.
  intros V. destruct (valid_build l V) as (ns & B & E). destruct V as (V & _). rewrite (E PTcp), (E PUdp). unfold dns_start, plain_sock, same_opts.
  destruct (isSet ns || active (c_opts l)) eqn:I.
  - split.
    + destruct (vers_cases _ V "tcp" (or_introl eq_refl)) as (V1 & V2). rewrite V2.
      destruct (listen_ok l ns Stream (networkForIPVersion "tcp" (c_ipv l)) (Text (c_addr l)) (c_opts l) B) as (p & A & K & _). rewrite K. eexists. split; [reflexivity|]. cbn. auto.
    + destruct (vers_cases _ V "udp" (or_intror eq_refl)) as (V1 & V2).
      assert (T : prefix "tcp" (networkForIPVersion "udp" (c_ipv l)) = false) by (destruct V as [->|[->| ->]]; reflexivity). rewrite T, V2.
      destruct (listen_ok l ns Dgram (networkForIPVersion "udp" (c_ipv l)) (Text (c_addr l)) (c_opts l) B) as (p & A & K & _). rewrite K. eexists. split; [reflexivity|]. cbn. auto.
  - apply orb_false_iff in I. destruct I as (I1 & I2). pose proof (here _ _ B I1) as H. pose proof (inactive _ I2) as O.
    destruct (vers_cases _ V "tcp" (or_introl eq_refl)) as (V1 & _). destruct (vers_cases _ V "udp" (or_intror eq_refl)) as (V2 & _). split.
    + exists (Sock Here Stream (networkForIPVersion "tcp" (c_ipv l)) (Text (c_addr l)) no_opts). split; [destruct V as [->|[->| ->]]; reflexivity|]. cbn [k_place k_type k_net k_addr k_opts]. rewrite O. auto.
    + exists (Sock Here Dgram (networkForIPVersion "udp" (c_ipv l)) (Text (c_addr l)) no_opts). split; [destruct V as [->|[->| ->]]; reflexivity|]. cbn [k_place k_type k_net k_addr k_opts]. rewrite O. auto.
Qed.
Lemma dot_ok l : valid l -> exists s, LS PDot l = Some s /\ at_place l (k_place s) /\ k_type s = Stream /\ k_addr s = Text (c_addr l) /\ same_opts (k_opts s) (c_opts l) /\
  (one_version (k_net s) (c_ipv l) <-> c_ipv l = 0%N \/ (c_netns l = "" /\ c_xsocket l = "" /\ active (c_opts l) = false)).
Proof.
  intros V. destruct (valid_build l V) as (ns & B & E). destruct V as (V & _). rewrite (E PDot). unfold dot_start, same_opts.
  assert (X : forall s c, ends s (String c "") -> last_char s = Some c) by (intros s c H; apply last_ends, H).
  destruct (isSet ns || active (c_opts l)) eqn:I.
  - destruct (listen_ok l ns Stream "tcp" (Text (c_addr l)) (c_opts l) B) as (p & A & K & _). rewrite K. eexists. split; [reflexivity|]. cbn.
    split; [exact A|]. split; [reflexivity|]. split; [reflexivity|]. split; [reflexivity|]. split.
    + intros [(-> & Y)|[(-> & Y)|(-> & _)]]; [apply X in Y; discriminate|apply X in Y; discriminate|auto].
    + intros [->|(E1 & E2 & E3)].
      * right. right. split; [reflexivity|]. split; intros Y; apply X in Y; discriminate.
      * rewrite E3, orb_false_r in I. apply build_ok in B. destruct B as [(_ & _ & ->)|[(N & _)|(_ & N & _)]]; [discriminate|congruence|congruence].
  - apply orb_false_iff in I. destruct I as (I1 & I2). pose proof (here _ _ B I1) as H. pose proof (inactive _ I2) as O. destruct (isset _ _ B I1) as (N1 & N2).
    exists (Sock Here Stream (networkForIPVersion "tcp" (c_ipv l)) (Text (c_addr l)) no_opts). split; [destruct V as [->|[->| ->]]; reflexivity|].
    cbn [k_place k_type k_net k_addr k_opts]. rewrite O. split; [exact H|]. split; [reflexivity|]. split; [reflexivity|]. split; [reflexivity|].
    destruct (vers_cases _ V "tcp" (or_introl eq_refl)) as (V1 & _). split; auto.
Qed.
(** Listeners over HTTP and QUIC *)
Lemma nover b : b = "tcp" \/ b = "udp" -> one_version b 0.
Proof.
  intros H. right. right. split; [reflexivity|]. destruct H as [->| ->]; split; intros Y; apply last_ends in Y; discriminate.
Qed.
Lemma http_ok p l : valid l -> p = POdoh \/ ((p = PDoh \/ p = PAdmin) /\ c_quic l = false) ->
  exists s, LS p l = Some s /\ http_sock l Stream (Text (c_addr l)) s.
Proof.
  intros V P. destruct (valid_build l V) as (ns & B & E). rewrite (E p).
  destruct (listen_ok l ns Stream "tcp" (Text (c_addr l)) (c_opts l) B) as (pl & A & K & _).
  exists (Sock pl Stream "tcp" (Text (c_addr l)) (c_opts l)). split.
  - destruct P as [->|([->| ->] & Q)]; rewrite ?Q; exact K.
  - unfold http_sock, same_opts. cbn [k_place k_type k_net k_addr k_opts]. pose proof (nover "tcp" (or_introl eq_refl)). auto.
Qed.
Lemma quic_ok p l : valid l -> p = PDoq \/ ((p = PDoh \/ p = PAdmin) /\ c_quic l = true) ->
  match resolveUDP (c_addr l) with
  | None => LS p l = None
  | Some (ip, port) => exists s, LS p l = Some s /\ http_sock l Dgram (Udp ip port) s
  end.
Proof.
  intros V P. destruct (valid_build l V) as (ns & B & E). rewrite (E p).
  assert (X : match p with
      | PTcp => dns_start (networkForIPVersion "tcp" (c_ipv l)) (c_addr l) ns (c_opts l)
      | PUdp => dns_start (networkForIPVersion "udp" (c_ipv l)) (c_addr l) ns (c_opts l)
      | PDot => dot_start (networkForIPVersion "tcp" (c_ipv l)) (c_addr l) ns (c_opts l)
      | PDtls => dtls_start parseIP (c_addr l) ns
      | PDoq => quic_start resolveUDP (c_addr l) ns (c_opts l)
      | POdoh => http_start (c_addr l) ns (c_opts l)
      | PAdmin | PDoh => if c_quic l then quic_start resolveUDP (c_addr l) ns (c_opts l) else http_start (c_addr l) ns (c_opts l)
      end = quic_start resolveUDP (c_addr l) ns (c_opts l)) by (destruct P as [->|([->| ->] & Q)]; rewrite ?Q; reflexivity).
  rewrite X. unfold quic_start. destruct (resolveUDP (c_addr l)) as [[ip port]|]; [|reflexivity].
  destruct (listen_ok l ns Dgram "udp" (Udp ip port) (c_opts l) B) as (pl & A & K & _). eexists. split; [exact K|].
  unfold http_sock, same_opts. cbn [k_place k_type k_net k_addr k_opts]. pose proof (nover "udp" (or_intror eq_refl)). auto.
Qed.
Lemma dtls_ok l h po : valid l -> hostport (c_addr l) h po ->
  match atoi po with
  | None => LS PDtls l = None
  | Some n => (c_xsocket l <> "" -> LS PDtls l = None) /\
      (c_xsocket l = "" -> exists s, LS PDtls l = Some s /\ at_place l (k_place s) /\ k_type s = Dgram /\ one_version (k_net s) 0 /\ k_addr s = Udp (parseIP h) n /\
         options (k_opts s) = [])
  end.
Proof.
  intros V H. destruct (valid_build l V) as (ns & B & E). rewrite (E PDtls). apply split_iff in H. unfold dtls_start. rewrite H.
  destruct (atoi po) as [n|]; [|reflexivity].
  destruct (listen_ok l ns Dgram "udp" (Udp (parseIP h) n) (c_opts l) B) as (pl & A & _ & K1 & K2). split.
  - intros X. rewrite (K2 X). reflexivity.
  - intros X. rewrite (K1 X). eexists. split; [reflexivity|]. cbn. pose proof (nover "udp" (or_intror eq_refl)). auto.
Qed.
Lemma invalid_none p l : ~ valid l -> LS p l = None.
Proof. intros N. destruct (LS p l) as [s|] eqn:E; [|reflexivity]. apply ls_valid in E. destruct E as (V & _). contradiction. Qed.
Lemma place_ok p l s : LS p l = Some s -> at_place l (k_place s).
Proof.
  intros H. destruct (ls_valid _ _ _ H) as (V & _). destruct (plain_ok l V) as ((s1 & A1 & B1 & _) & (s2 & A2 & B2 & _)).
  assert (HT : forall q a t, (exists s, LS q l = Some s /\ http_sock l t a s) -> LS q l = Some s -> at_place l (k_place s)).
  { intros q a t (s' & A & B & _) K. congruence. }
  assert (HQ : forall q, q = PDoq \/ ((q = PDoh \/ q = PAdmin) /\ c_quic l = true) -> LS q l = Some s -> at_place l (k_place s)).
  { intros q Q K. pose proof (quic_ok q l V Q) as X. destruct (resolveUDP (c_addr l)) as [[ip po]|]; [eapply HT; eauto|congruence]. }
  destruct p; try congruence.
  - destruct (c_quic l) eqn:Q; [apply (HQ PAdmin); auto|eapply (HT PAdmin); eauto; apply http_ok; auto].
  - destruct (dot_ok l V) as (s' & A & B & _). congruence.
  - destruct (valid_build l V) as (ns & B & E). pose proof (E PDtls) as X. rewrite H in X. unfold dtls_start in X.
    destruct (SplitHostPort (c_addr l)) as [[h po]|] eqn:S; [|discriminate]. apply split_iff in S. pose proof (dtls_ok l h po V S) as D.
    destruct (atoi po); [|congruence]. destruct (String.eqb_spec (c_xsocket l) "") as [Y|Y]; destruct D as (D1 & D2).
    + destruct (D2 Y) as (s' & K & A & _). congruence.
    + rewrite (D1 Y) in H. discriminate.
  - destruct (c_quic l) eqn:Q; [apply (HQ PDoh); auto|eapply (HT PDoh); eauto; apply http_ok; auto].
  - apply (HQ PDoq); auto.
  - eapply (HT POdoh); eauto. apply http_ok; auto.
Qed.
End P.
