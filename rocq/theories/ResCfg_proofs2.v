(** The sockets of each kind of client. *)
From Verif Require Import Base Bytes Net Cidr_spec Net_spec Router_model Addr_model Addr_spec Base_proofs Net_proofs Addr_proofs RunNs_model XDial_model LSock_model Hostname_spec Hostname_model Hostname_proofs ListCfg_model ResCfg_model ResCfg_spec ResCfg_proofs.
From Verif Require Tls_model Client_model.
Local Open Scope string_scope.

Section P.
Context {CA Cert : Type}.
Variable w : world CA Cert.
Hypothesis SANE : sane w.
Notation lip r := (w_ip w (r_local r)).
Notation lip4 r := (w_ip w (r_local4 r)).
Notation lip6 r := (w_ip w (r_local6 r)).

Definition nettype (network : string) (type : socktype) : Prop := (network = "tcp" /\ type = Stream) \/ (network = "udp" /\ type = Dgram).
Lemma socks_ok r ns p network type address h t port : ns_of r ns -> called r ns p -> nettype network type -> hostport address t port ->
  instead r h t -> stays w r -> by_proxy w r type h port (socks_dial CA Cert w (socks_of w r ns) p network address).
Proof.
  intros NS C NT H I ST. destruct (once_asked w SANE r address t port H) as (t' & A & HX). destruct (literal_is w t') as (o & L).
  unfold socks_dial. cbn [Dial].
  change (s_dial (socks_of w r ns)) with (SOpt (lip r) (lip4 r) (lip6 r) (p_resolve r)).
  change (s_server (socks_of w r ns)) with (p_address r). change (s_user (socks_of w r ns)) with (p_user r).
  change (s_password (socks_of w r ns)) with (p_password r). cbn [s_local s_local4 s_local6].
  set (x := once _ _ _ _ address) in *. set (l := selectLocalAddr _ x _ _ _). set (src := source (w_show w) l).
  assert (B : socks5LocalIP (w_ip w) src = l) by (subst src l; exact (source_back w SANE r x)).
  assert (LO : local w r o l) by (subst l; exact (select_host w SANE x t' port _ _ _ o HX L)).
  assert (K : forall nw raddr, (nw = "tcp" -> raddr = p_address r) ->
     let k := socks_hook CA Cert w (socks_of w r ns) p nw src raddr in proper r k /\ n_type k = kind nw /\ n_local k = l /\ n_peer k = Text raddr).
  { intros nw raddr T. destruct (hook_place w r ns p nw src raddr NS C) as (K1 & K2 & K3 & K4).
    - destruct ST as [S|[S|S]]; [auto|auto|left]. apply (no_race w SANE). intros E. rewrite (T E). exact S.
    - cbv zeta. rewrite <- B. auto. }
  destruct (K "tcp" (p_address r)) as (K1 & K2 & K3 & K4); [reflexivity|].
  exists t, t', x, o. eexists. eexists. split; [exact I|]. split; [exact A|]. split; [exact HX|]. split; [exact L|]. split; [reflexivity|].
  split; [exact K2|]. split; [exact K4|]. destruct NT as [(-> & ->)|(-> & ->)]; cbn [String.eqb Ascii.eqb Bool.eqb].
  - split; [reflexivity|]. split; [discriminate|]. constructor; [|constructor]. split; [exact K1|]. rewrite K3. exact LO.
  - destruct (K "udp" (w_relay w (p_address r))) as (J1 & J2 & J3 & J4); [discriminate|].
    split; [discriminate|]. split; [intros _; eexists; split; [reflexivity|]; split; [exact J2|exact J4]|].
    constructor; [split; [exact K1|rewrite K3; exact LO]|]. constructor; [split; [exact J1|rewrite J3; exact LO]|constructor].
Qed.

Definition dialer_of (r : settings) (ns : option netns) : option socks := socks5DialerFromConfig CA Cert w r ns (options r).
Lemma dialer_none r ns : p_address r = "" -> dialer_of r ns = None.
Proof. unfold dialer_of, socks5DialerFromConfig. intros ->. reflexivity. Qed.
Lemma dialer_some r ns : p_address r <> "" -> dialer_of r ns = Some (socks_of w r ns).
Proof. unfold dialer_of, socks5DialerFromConfig. intros N. apply String.eqb_neq in N. rewrite N. reflexivity. Qed.

Lemma generic_ok r ns network type timeout address h t port : ns_of r ns -> nettype (plain_net network) type -> hostport address t port -> instead r h t ->
  exists e, generic_dial CA Cert w (Generic (dialer_of r ns) network (lip r) (lip4 r) (lip6 r) timeout ns (options r)) address = Some e /\
    (p_address r = "" -> direct w r type h port e) /\ (p_address r <> "" -> stays w r -> by_proxy w r type h port e).
Proof.
  intros NS NT H I. unfold generic_dial. cbn [g_net g_dialer g_local g_local4 g_local6 g_ns g_opts].
  assert (TY : kind (plain_net network) = type) by (destruct NT as [(-> & ->)|(-> & ->)]; reflexivity).
  destruct (String.eqb_spec (p_address r) "") as [E|N].
  - rewrite (dialer_none r ns E). destruct (dialled w SANE address t port (lip r) (lip4 r) (lip6 r) H) as (t' & o & R & S & X & L & NR).
    destruct (dial _ _ _ address _ _ _) as [a l] eqn:DI. cbn [fst snd] in X, L, NR.
    assert (G : forall k, n_place k = n_place k -> proper r k -> n_type k = type -> n_peer k = Text a -> n_local k = l -> direct w r type h port (Reach [k] None)).
    { intros k _ K1 K2 K3 K4. exists t, t', a, o, k. rewrite K4. auto 12. }
    unfold netDial. rewrite NR.
    destruct (ns_where r ns NS) as [(A1 & A2 & A3 & A4 & A5 & A6)|[(A1 & A2 & A3 & A4)|(A1 & A2 & A3 & A4 & A5)]].
    + rewrite A1. eexists. split; [reflexivity|]. split; [intros _|contradiction]. apply G; cbn; auto. split; [exact A5|reflexivity].
    + rewrite A1, A2, A3. eexists. split; [reflexivity|]. split; [intros _|contradiction]. apply G; cbn; auto. split; [exact A4|reflexivity].
    + rewrite A1, A2, A3. eexists. split; [reflexivity|]. split; [intros _|contradiction]. apply G; cbn; auto. split; [exact A5|reflexivity].
  - rewrite (dialer_some r ns N).
    destruct (ns_where r ns NS) as [(A1 & A2 & A3 & A4 & A5 & A6)|[(A1 & A2 & A3 & A4)|(A1 & A2 & A3 & A4 & A5)]].
    + rewrite A1. eexists. split; [reflexivity|]. split; [contradiction|intros _ ST]. apply (socks_ok r ns Here _ type address h t port); auto. right. exact A5.
    + rewrite A1, A2, A3. eexists. split; [reflexivity|]. split; [contradiction|intros _ ST]. apply (socks_ok r ns _ _ type address h t port); auto. right. exact A4.
    + rewrite A1, A2. eexists. split; [reflexivity|]. split; [contradiction|intros _ ST]. apply (socks_ok r ns Here _ type address h t port); auto. left. exact A2.
Qed.

(** ** HTTP over TCP *)
Definition doh_of (r : settings) (ns : option netns) (d : option socks) : dohopt := DohOpt (r_boot r) (lip r) (lip4 r) (lip6 r) (seconds (h_idle r)) d ns (options r).
Lemma bootstrapped_ok r a h p : hostport a h p -> ~ plain_dns r -> plain (r_boot r) -> exists x t, bootstrapped (r_boot r) a = Some x /\ instead r h t /\ hostport x t p.
Proof.
  intros H ND PB. unfold bootstrapped. destruct (String.eqb_spec (r_boot r) "") as [E|N].
  - exists a, h. split; [reflexivity|]. split; [right; auto|exact H].
  - rewrite (split_of _ _ _ H). exists (JoinHostPort (r_boot r) p), (r_boot r). split; [reflexivity|]. split; [left; auto|]. apply (join_hostport _ _ p H). exact PB.
Qed.
Lemma custom_not r ns d : ns_of r ns -> custom (doh_of r ns d) = false -> d = None /\ r_boot r = "" /\ lip r = [] /\ lip4 r = [] /\ lip6 r = [] /\ r_netns r = "" /\ r_xsocket r = "" /\ options r = SockOpts 0 "".
Proof.
  intros NS. unfold custom, doh_of. cbn [t_boot t_local t_local4 t_local6 t_dialer t_ns t_opts]. intros H. rewrite !orb_false_iff in H.
  destruct H as ((((A & B) & C) & D) & E). apply negb_false_iff, String.eqb_eq in A. apply inactive in E.
  destruct d; [discriminate|]. destruct (lip r); [|discriminate]. destruct (lip4 r); [|discriminate]. destruct (lip6 r); [|discriminate].
  destruct NS as [(X & Y & ->)|[(X & Y & ->)|(X & Y & ->)]]; [auto 9| |]; unfold isSet in D; cbn [ns_name ns_xsocket] in D; apply orb_false_iff in D; destruct D as (D1 & D2); apply negb_false_iff, String.eqb_eq in D1, D2; contradiction.
Qed.
Lemma doh_tcp_ok r ns d a h p : ns_of r ns -> ~ plain_dns r -> plain (r_boot r) -> hostport a h p -> (d = None \/ d = dialer_of r ns) ->
  exists e, doh_dial CA Cert w (doh_of r ns d) a = Some e /\
    (d = None -> direct w r Stream h p e \/ custom (doh_of r ns d) = false /\ e = Reach [Conn Here Stream (SockOpts 0 "") [] (Text a)] None) /\
    (d = dialer_of r ns -> p_address r <> "" -> stays w r -> by_proxy w r Stream h p e).
Proof.
  intros NS ND PB H D. unfold doh_dial. destruct (custom (doh_of r ns d)) eqn:CU; cbn [negb].
  - destruct (bootstrapped_ok r a h p H ND PB) as (x & t & B & I & X). change (t_boot (doh_of r ns d)) with (r_boot r). rewrite B.
    change (t_dialer (doh_of r ns d)) with d. change (t_ns (doh_of r ns d)) with ns. change (t_opts (doh_of r ns d)) with (options r).
    change (t_local (doh_of r ns d)) with (lip r). change (t_local4 (doh_of r ns d)) with (lip4 r). change (t_local6 (doh_of r ns d)) with (lip6 r).
    destruct d as [s|].
    + destruct D as [D|D]; [discriminate|].
      assert (N : p_address r <> "") by (intros E; rewrite (dialer_none r ns E) in D; discriminate).
      rewrite (dialer_some r ns N) in D. injection D as ->.
      destruct (ns_where r ns NS) as [(A1 & A2 & A3 & A4 & A5 & A6)|[(A1 & A2 & A3 & A4)|(A1 & A2 & A3 & A4 & A5)]]; rewrite A2, ?A3.
      * eexists. split; [reflexivity|]. split; [discriminate|intros _ _ ST]. apply (socks_ok r ns Here "tcp" Stream x h t p); auto; [right; exact A5|left; auto].
      * eexists. split; [reflexivity|]. split; [discriminate|intros _ _ ST]. apply (socks_ok r ns _ "tcp" Stream x h t p); auto; [right; exact A4|left; auto].
      * eexists. split; [reflexivity|]. split; [discriminate|intros _ _ ST]. subst ns. apply (socks_ok r _ Here "tcp" Stream x h t p); auto; [left; exact A2|left; auto].
    + destruct (dialled w SANE x t p (lip r) (lip4 r) (lip6 r) X) as (t' & o & R & S & XX & L & NR).
      destruct (dial _ _ _ x _ _ _) as [b l] eqn:DI. cbn [fst snd] in XX, L, NR. unfold netDial. rewrite NR.
      assert (G : forall k, proper r k -> n_type k = Stream -> n_peer k = Text b -> n_local k = l -> direct w r Stream h p (Reach [k] None)).
      { intros k K1 K2 K3 K4. exists t, t', b, o, k. rewrite K4. auto 12. }
      assert (Z : None = dialer_of r ns -> p_address r <> "" -> False) by (intros E N; rewrite (dialer_some r ns N) in E; discriminate).
      destruct (ns_where r ns NS) as [(A1 & A2 & A3 & A4 & A5 & A6)|[(A1 & A2 & A3 & A4)|(A1 & A2 & A3 & A4 & A5)]]; rewrite A2, ?A3.
      * eexists. split; [reflexivity|]. split; [intros _; left; apply G; cbn; auto; split; [exact A5|reflexivity]|intros E N; destruct (Z E N)].
      * eexists. split; [reflexivity|]. split; [intros _; left; apply G; cbn; auto; split; [exact A4|reflexivity]|intros E N; destruct (Z E N)].
      * eexists. split; [reflexivity|]. split; [intros _; left; apply G; cbn; auto; split; [exact A5|reflexivity]|intros E N; rewrite <- A3 in E; destruct (Z E N)].
  - destruct (custom_not r ns d NS CU) as (-> & _). eexists. split; [reflexivity|]. split; [intros _; right; auto|].
    intros E N. rewrite (dialer_some r ns N) in E. discriminate.
Qed.

(** ** UDP sockets *)
Lemma listen_proper r ns network a s : ns_of r ns -> listenInNetNS Dgram ns network a (options r) = Some s -> placed r (k_place s) /\ k_opts s = options r /\ k_addr s = a.
Proof.
  intros NS. unfold listenInNetNS.
  destruct (ns_where r ns NS) as [(A1 & A2 & A3 & A4 & A5 & A6)|[(A1 & A2 & A3 & A4)|(A1 & A2 & A3 & A4 & A5)]]; rewrite A2, ?A3; intros [= <-]; auto.
Qed.
Lemma listen_some r ns network a : ns_of r ns -> exists s, listenInNetNS Dgram ns network a (options r) = Some s.
Proof.
  intros NS. unfold listenInNetNS.
  destruct (ns_where r ns NS) as [(A1 & A2 & A3 & A4 & A5 & A6)|[(A1 & A2 & A3 & A4)|(A1 & A2 & A3 & A4 & A5)]]; rewrite A2, ?A3; eauto.
Qed.
Lemma dtls_ok r ns la ip port : ns_of r ns -> exists e, dtls_dial la (ip, port) ns (options r) = Some e /\ sends r ip port la e.
Proof.
  intros NS. unfold dtls_dial. destruct (listen_some r ns "udp" (Udp la 0) NS) as (s & E). rewrite E. destruct (listen_proper r ns _ _ s NS E) as (A & B & _).
  eexists. split; [reflexivity|]. eexists. split; [reflexivity|]. split; [split; [exact A|exact B]|]. auto.
Qed.
Lemma socket_proper r ns network l s : ns_of r ns -> quic_socket CA Cert w ns network l (options r) = Some s -> placed r (k_place s) /\ k_opts s = options r /\ bound s = l.
Proof.
  intros NS. unfold quic_socket. destruct (listenInNetNS _ _ _ _ _) as [s'|] eqn:E; [|discriminate]. destruct (w_bind w s'); [|discriminate]. intros [= <-].
  destruct (listen_proper r ns _ _ s' NS E) as (A & B & C). unfold bound. rewrite C. auto.
Qed.
Definition single (r : settings) : bytes :=
  match lip6 r with [] => match lip4 r with [] => match lip r with [] => IPv4zero | _ => lip r end | _ => lip4 r end | _ => lip6 r end.
Lemma sockets_cases r ns n4 n6 q : quic_sockets CA Cert w n4 n6 ns (lip r) (lip4 r) (lip6 r) (options r) = Some q ->
  (lip4 r <> [] /\ lip6 r <> [] /\ exists s4 s6, quic_socket CA Cert w ns n4 (lip4 r) (options r) = Some s4 /\ quic_socket CA Cert w ns n6 (lip6 r) (options r) = Some s6 /\ q = Dual s4 s6) \/
  ((lip4 r = [] \/ lip6 r = []) /\ exists s, quic_socket CA Cert w ns "udp" (single r) (options r) = Some s /\ q = Single s).
Proof.
  unfold quic_sockets, single. destruct (lip4 r) as [|a l4] eqn:E4; [|destruct (lip6 r) as [|b l6] eqn:E6].
  - intros H. right. split; [auto|]. destruct (lip6 r), (lip r), (quic_socket _ _ _ _ _ _ _) as [s|]; try discriminate; injection H as <-; eauto.
  - intros H. right. split; [auto|]. destruct (lip r), (quic_socket _ _ _ _ _ _ _) as [s|]; try discriminate; injection H as <-; eauto.
  - destruct (quic_socket _ _ _ _ n4 _ _) as [s4|] eqn:S4; [|discriminate]. destruct (quic_socket _ _ _ _ n6 _ _) as [s6|] eqn:S6; [|discriminate]. intros [= <-].
    left. split; [discriminate|]. split; [discriminate|]. exists s4, s6. auto.
Qed.
Lemma single_local r ip : (lip4 r = [] \/ lip6 r = []) -> quic_local w r ip (single r).
Proof.
  unfold quic_local, single. cbv zeta. intros H. destruct (lip6 r) as [|b l6].
  - destruct (lip4 r) as [|a l4]; [destruct (lip r) as [|c l]|].
    + do 4 right. auto.
    + do 3 right. left. repeat split; auto. discriminate.
    + right. left. repeat split; auto. discriminate.
  - destruct H as [H|H]; [|discriminate]. right. right. left. repeat split; auto. discriminate.
Qed.
Lemma quic_ok r ns n4 n6 q x ip port : ns_of r ns -> quic_sockets CA Cert w n4 n6 ns (lip r) (lip4 r) (lip6 r) (options r) = Some q ->
  w_udp w x = Some (ip, port) -> ip_ok ip -> exists e got, quic_send CA Cert w q x = Some e /\ sends r ip port got e /\ quic_local w r ip got.
Proof.
  intros NS Q U O. unfold quic_send. rewrite U. destruct (sockets_cases r ns n4 n6 q Q) as [(N4 & N6 & s4 & s6 & S4 & S6 & ->)|(C & s & S & ->)]; cbn [quic_sock].
  - destruct (socket_proper r ns _ _ s4 NS S4) as (A1 & A2 & A3). destruct (socket_proper r ns _ _ s6 NS S6) as (B1 & B2 & B3).
    destruct (v4b ip) eqn:V.
    + eexists. exists (lip4 r). split; [reflexivity|]. split; [eexists; split; [reflexivity|]; cbn; repeat split; auto|].
      left. split; [exact N4|]. split; [exact N6|]. left. split; [apply (v4b_iff ip O); exact V|reflexivity].
    + eexists. exists (lip6 r). split; [reflexivity|]. split; [eexists; split; [reflexivity|]; cbn; repeat split; auto|].
      left. split; [exact N4|]. split; [exact N6|]. right. split; [intros K; apply (v4b_iff ip O) in K; congruence|reflexivity].
  - destruct (socket_proper r ns _ _ s NS S) as (A1 & A2 & A3). eexists. exists (single r). split; [reflexivity|].
    split; [eexists; split; [reflexivity|]; cbn; repeat split; auto|]. exact (single_local r ip C).
Qed.
Lemma sockets_some r ns n4 n6 : ns_of r ns -> (forall s, w_bind w s = true) -> exists q, quic_sockets CA Cert w n4 n6 ns (lip r) (lip4 r) (lip6 r) (options r) = Some q.
Proof.
  intros NS B. assert (S : forall n l, exists s, quic_socket CA Cert w ns n l (options r) = Some s).
  { intros n l. unfold quic_socket. destruct (listen_some r ns n (Udp l 0) NS) as (s & ->). rewrite B. eauto. }
  unfold quic_sockets. destruct (lip4 r) as [|a l4]; [|destruct (lip6 r) as [|b l6]].
  - destruct (lip6 r), (lip r); match goal with |- context [quic_socket _ _ _ _ ?n ?l _] => destruct (S n l) as (s & ->) end; eauto.
  - destruct (lip r); match goal with |- context [quic_socket _ _ _ _ ?n ?l _] => destruct (S n l) as (s & ->) end; eauto.
  - destruct (S n4 (a :: l4)) as (s4 & ->). destruct (S n6 (b :: l6)) as (s6 & ->). eauto.
Qed.
End P.
