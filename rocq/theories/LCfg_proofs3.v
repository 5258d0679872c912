(** Proofs for LCfg_model.v: sockets and TLS in the words of the specification, and replies over plain DNS, DoT and DTLS. *)
From Verif Require Import Base Bytes Base_proofs Dns Net Cidr_model Cidr_spec Net_spec Modifiers_spec Router_model Router_proofs Addr_model Addr_spec Addr_proofs
  RunNs_model XDial_model XDial_spec LSock_model LSock_spec LSock_proofs Tls_spec Tls_proofs Listener_model Listener_spec Listener_proofs Listener_proofs2 Listener_proofs3.
From Verif Require Tls_model Odoh_model Odoh_spec Odoh_proofs.
From Verif Require Import LCfg_model LCfg_spec LCfg_proofs LCfg_proofs2.
Local Open Scope string_scope.
Local Open Scope bool_scope.

Section P.
Context {R CA Cert Key : Type}.
Variable w : world R CA Cert Key.
Notation start := (Start R CA Cert Key w).

Lemma socket_plain id l ln a : made w id l ln -> listens l a ->
  (is l ["tcp"] -> exists s, start ln = Some s /\ plain_sock (asked l a) Stream s) /\ (is l ["udp"] -> exists s, start ln = Some s /\ plain_sock (asked l a) Dgram s).
Proof.
  intros M L. destruct (start_ls w id l ln a M L) as (-> & V). destruct (plain_ok (w_udp w) (w_ip w) (asked l a) V) as [A B].
  split; intros E; apply is1 in E; rewrite E; assumption.
Qed.
Lemma socket_dot id l ln a : made w id l ln -> listens l a -> is l ["dot"] -> exists s, start ln = Some s /\
  at_place (asked l a) (k_place s) /\ k_type s = Stream /\ k_addr s = Text a /\ same_opts (k_opts s) (c_opts (asked l a)) /\
  (one_version (k_net s) (Z.to_N (l_ipv l)) <-> l_ipv l = 0%Z \/ (l_netns l = "" /\ l_xsocket l = "" /\ l_mark l = 0%N /\ l_bindif l = "")).
Proof.
  intros M L E. destruct (start_ls w id l ln a M L) as (-> & V). apply is1 in E. rewrite E. destruct (dot_ok (w_udp w) (w_ip w) (asked l a) V) as (s & A & B & C & D & F & G).
  exists s. repeat (split; [assumption|]). etransitivity; [exact G|]. cbn.
  assert (X : active (SockOpts (l_mark l) (l_bindif l)) = false <-> l_mark l = 0%N /\ l_bindif l = "").
  { unfold active. cbn. destruct (String.eqb_spec (l_bindif l) "") as [Y|Y]; cbn [negb]; split; intros H; [split; [lia|exact Y]|lia|lia|tauto]. }
  assert (Y : Z.to_N (l_ipv l) = 0%N <-> l_ipv l = 0%Z). { apply made_build in M. destruct M as (o & bl & rnd & (al & ns & _ & T & _) & _). lia. }
  tauto.
Qed.
Lemma socket_http id l ln a : made w id l ln -> listens l a -> is l ["odoh"] \/ (is l ["doh"; "admin"] /\ l_transport l <> "quic") ->
  exists s, start ln = Some s /\ http_sock (asked l a) Stream (Text a) s.
Proof.
  intros M L E. destruct (start_ls w id l ln a M L) as (-> & V). apply (http_ok (w_udp w) (w_ip w) _ (asked l a) V).
  destruct E as [E|[E T]]; unfold is in E; cbn in E.
  - destruct E as [<-|[]]. left. reflexivity.
  - right. cbn. destruct (String.eqb_spec (l_transport l) "quic"); [contradiction|]. destruct E as [<-|[<-|[]]]; split; auto.
Qed.
Lemma socket_quic id l ln a : made w id l ln -> listens l a -> is l ["doq"] \/ (is l ["doh"; "admin"] /\ l_transport l = "quic") ->
  match w_udp w a with None => start ln = None | Some (ip, port) => exists s, start ln = Some s /\ http_sock (asked l a) Dgram (Udp ip port) s end.
Proof.
  intros M L E. destruct (start_ls w id l ln a M L) as (-> & V).
  assert (X : prot (l_protocol l) = PDoq \/ ((prot (l_protocol l) = PDoh \/ prot (l_protocol l) = PAdmin) /\ c_quic (asked l a) = true)).
  { destruct E as [E|[E T]]; unfold is in E; cbn in E.
    - destruct E as [<-|[]]. left. reflexivity.
    - right. cbn. rewrite T. destruct E as [<-|[<-|[]]]; split; auto. }
  exact (quic_ok (w_udp w) (w_ip w) _ (asked l a) V X).
Qed.
Lemma socket_dtls id l ln a h po : made w id l ln -> listens l a -> is l ["dtls"] -> hostport a h po ->
  match atoi po with
  | None => start ln = None
  | Some n => (l_xsocket l <> "" -> start ln = None) /\
      (l_xsocket l = "" -> exists s, start ln = Some s /\ at_place (asked l a) (k_place s) /\ k_type s = Dgram /\
         one_version (k_net s) 0 /\ k_addr s = Udp (w_ip w h) n /\ options (k_opts s) = [])
  end.
Proof.
  intros M L E H. destruct (start_ls w id l ln a M L) as (-> & V). apply is1 in E. rewrite E. exact (dtls_ok (w_udp w) (w_ip w) (asked l a) h po V H).
Qed.

(** *** TLS *)
Lemma tls_ok id l ln : made w id l ln ->
  (secured l -> exists p x, files w l p x /\
     tls_of R CA Cert Key ln = Some (Tls_model.Conf CA Cert (l_mutual l) p None x "" (if String.eqb (l_protocol l) "dtls" then 0 else 771)%N)) /\
  (~ secured l -> tls_of R CA Cert Key ln = None).
Proof.
  intros M. pose proof M as M0. apply made_build in M0. destruct M0 as (o0 & bl & rnd & _ & H0 & _).
  destruct (in_dec string_dec (l_protocol l) known) as [I|N]; [|rewrite (bld_unknown w l o0 _ N) in H0; discriminate].
  assert (SC : forall c, server_conf R CA Cert Key w l = Some c -> exists p x, files w l p x /\ Some c = Some (Tls_model.Conf CA Cert (l_mutual l) p None x "" 771)).
  { intros c H. apply server_iff in H. destruct H as (p & x & A & B & C & ->). exists p, x. split; [split; auto|reflexivity]. }
  unfold secured, is. unfold known in I. destruct I as [E|[E|[E|[E|[E|[E|[E|[E|[]]]]]]]]]; symmetry in E; rewrite E; cbn [In String.eqb Ascii.eqb Bool.eqb].
  - destruct (made_dns w "tcp" id l ln (or_introl eq_refl) M E) as (o & r & _ & _ & ->). split; [intuition discriminate|reflexivity].
  - destruct (made_dns w "udp" id l ln (or_intror eq_refl) M E) as (o & r & _ & _ & ->). split; [intuition discriminate|reflexivity].
  - destruct (made_admin w id l ln M E) as (o & c & t & _ & H & _ & ->). split; [intros _; exact (SC c H)|tauto].
  - destruct (made_dot w id l ln M E) as (o & r & c & _ & _ & H & ->). split; [intros _; exact (SC c H)|tauto].
  - destruct (made_dtls w id l ln M E) as (o & r & c & _ & _ & H & ->). split; [intros _|tauto]. apply dserver_iff in H. destruct H as (p & x & A & B & C & ->).
    exists p, x. split; [split; auto|reflexivity].
  - destruct (made_doh w id l ln M E) as (o & r & c & t & n & _ & _ & _ & _ & A & B & ->). cbn. destruct (l_notls l) eqn:NT.
    + split; [intuition discriminate|reflexivity].
    + split; [|tauto]. intros _. destruct (B eq_refl) as (c' & -> & H). exact (SC c' H).
  - destruct (made_doq w id l ln M E) as (o & r & c & _ & _ & H & ->). split; [intros _; exact (SC c H)|tauto].
  - destruct (made_odoh w id l ln M E) as (o & r & c & k & rd & _ & _ & H & _ & ->). split; [intros _; exact (SC c H)|tauto].
Qed.

(** *** Messages *)
Variable b : lib R Key.
Notation srv := (serve R CA Cert Key w b).
Hypothesis S : sane w b.

Lemma itoa_v v : (v = 0 \/ v = 4 \/ v = 6)%Z -> forall p, networkForIPVersion p (Z.to_N v) = if Z.eqb v 0 then p else if Z.eqb v 4 then p ++ "4" else p ++ "6".
Proof. intros [->|[->| ->]] p; reflexivity. Qed.
Lemma gets_of l q a m t : (l_ipv l = 0 \/ l_ipv l = 4 \/ l_ipv l = 6)%Z ->
  (l_protocol l = "tcp" /\ t = networkForIPVersion "tcp" (Z.to_N (l_ipv l))) \/ (l_protocol l = "udp" /\ t = networkForIPVersion "udp" (Z.to_N (l_ipv l))) \/
  (l_protocol l = "dot" /\ t = "dot") \/ (l_protocol l = "dtls" /\ t = "dtls") ->
  delivered (b_truncate R Key b) t q a m -> gets b l q a m.
Proof.
  intros V T (p & A & B & C & D). exists p. unfold is.
  destruct T as [[-> ->]|[[-> ->]|[[-> ->]|[-> ->]]]]; rewrite ?(itoa_v _ V) in *; cbn [In] in *.
  - assert (N : ~ ("dot" = (if Z.eqb (l_ipv l) 0 then "tcp" else if Z.eqb (l_ipv l) 4 then "tcp" ++ "4" else "tcp" ++ "6") \/ "dtls" = (if Z.eqb (l_ipv l) 0 then "tcp" else if Z.eqb (l_ipv l) 4 then "tcp" ++ "4" else "tcp" ++ "6") \/ False)).
    { destruct V as [->|[->| ->]]; cbn; intuition discriminate. }
    assert (N' : ~ ("udp" = (if Z.eqb (l_ipv l) 0 then "tcp" else if Z.eqb (l_ipv l) 4 then "tcp" ++ "4" else "tcp" ++ "6") \/ "dtls" = (if Z.eqb (l_ipv l) 0 then "tcp" else if Z.eqb (l_ipv l) 4 then "tcp" ++ "4" else "tcp" ++ "6") \/ False)).
    { destruct V as [->|[->| ->]]; cbn; intuition discriminate. }
    split; [intuition discriminate|]. split; [intros _; exact (B N)|]. split; [intuition discriminate|]. intros _. exact (D N').
  - assert (N : ~ ("dot" = (if Z.eqb (l_ipv l) 0 then "udp" else if Z.eqb (l_ipv l) 4 then "udp" ++ "4" else "udp" ++ "6") \/ "dtls" = (if Z.eqb (l_ipv l) 0 then "udp" else if Z.eqb (l_ipv l) 4 then "udp" ++ "4" else "udp" ++ "6") \/ False)).
    { destruct V as [->|[->| ->]]; cbn; intuition discriminate. }
    split; [intuition discriminate|]. split; [intros _; exact (B N)|]. destruct V as [V|V].
    + rewrite V in C, D |- *. cbn in C, D. split; [intros _; apply C; auto|intuition (discriminate || congruence)].
    + assert (X : l_ipv l <> 0%Z) by lia. split; [intuition (discriminate || congruence)|]. intros _. apply D. destruct V as [V|V]; rewrite V; cbn; intuition discriminate.
  - split; [intros _; apply A; auto|]. split; [intuition discriminate|]. split; [intuition discriminate|]. intros _. apply D. intuition discriminate.
  - split; [intros _; apply A; auto|]. split; [intuition discriminate|]. split; [intros _; apply C; auto|]. intuition discriminate.
Qed.

(** The four kinds of listener are served by one handler *)
Lemma msg_handler id l ln : made w id l ln -> is l ["tcp"; "udp"; "dot"; "dtls"] -> exists r al t, w_resolver w (l_resolver l) = Some r /\
  parseCIDRList (w_addr w) (l_allowed l) = Some al /\
  (forall q a m, delivered (b_truncate R Key b) t q a m -> gets b l q a m) /\
  forall src tls q, srv id ln (AMsg src tls q) = Ran Key (listenHandler (b_ask R Key b r) (b_size R Key b) (b_optlen R Key b) (b_truncate R Key b) id t al src tls q).
Proof.
  intros M I. unfold is in I. cbn in I. destruct I as [E|[E|[E|[E|[]]]]]; symmetry in E.
  - destruct (made_dns w "tcp" id l ln (or_introl eq_refl) M E) as (o & r & (al & ns & A & V & _ & ->) & RR & ->). exists r, al, (networkForIPVersion "tcp" (Z.to_N (l_ipv l))).
    split; [exact RR|]. split; [exact A|]. split; [|reflexivity]. intros q a m. apply gets_of; [exact V|]. tauto.
  - destruct (made_dns w "udp" id l ln (or_intror eq_refl) M E) as (o & r & (al & ns & A & V & _ & ->) & RR & ->). exists r, al, (networkForIPVersion "udp" (Z.to_N (l_ipv l))).
    split; [exact RR|]. split; [exact A|]. split; [|reflexivity]. intros q a m. apply gets_of; [exact V|]. tauto.
  - destruct (made_dot w id l ln M E) as (o & r & c & (al & ns & A & V & _ & ->) & RR & _ & ->). exists r, al, "dot".
    split; [exact RR|]. split; [exact A|]. split; [|reflexivity]. intros q a m. apply gets_of; [exact V|]. tauto.
  - destruct (made_dtls w id l ln M E) as (o & r & c & (al & ns & A & V & _ & ->) & RR & _ & ->). exists r, al, "dtls".
    split; [exact RR|]. split; [exact A|]. split; [|reflexivity]. intros q a m. apply gets_of; [exact V|]. tauto.
Qed.
Lemma msg_ok id l ln src tls q : made w id l ln -> is l ["tcp"; "udp"; "dot"; "dtls"] -> src = [] \/ ip_ok src -> opt_wf q ->
  exists r run, w_resolver w (l_resolver l) = Some r /\ srv id ln (AMsg src tls q) = Ran Key run /\
  let ci := Client src "" tls id in
  (m_question q = [] -> run = ([], Silent)) /\
  (m_question q <> [] -> ~ served w l src -> exists a m, error_reply q 5 a /\ gets b l q a m /\ run = ([], Written m)) /\
  (m_question q <> [] -> served w l src -> b_ask R Key b r q ci = Drop -> run = ([Call q ci], Closed)) /\
  (m_question q <> [] -> served w l src -> b_ask R Key b r q ci <> Drop -> (forall a, b_ask R Key b r q ci = Ans a -> paddable a) ->
     exists a m, outcome q (b_ask R Key b r q ci) a /\ gets b l q a m /\ run = ([Call q ci], Written m)).
Proof.
  intros M I O W. destruct (msg_handler id l ln M I) as (r & al & t & RR & A & G & H). exists r, (listenHandler (b_ask R Key b r) (b_size R Key b) (b_optlen R Key b) (b_truncate R Key b) id t al src tls q).
  split; [exact RR|]. split; [apply H|]. cbv zeta.
  pose proof (fun NQ => dns_acl (b_ask R Key b r) (b_size R Key b) (b_optlen R Key b) (b_truncate R Key b) (sane_pad w b S) (w_addr w) (sane_addr w b S) id t (l_allowed l) al src tls q A O NQ W) as X.
  split.
  { intros NQ. unfold listenHandler. rewrite NQ. reflexivity. }
  split.
  { intros NQ N. destruct (proj2 (X NQ) N) as (a & m & E1 & E2 & E3). exists a, m. split; [exact E1|]. split; [apply G; exact E2|exact E3]. }
  split.
  { intros NQ Y D. assert (P : forall a, b_ask R Key b r q (Client src "" tls id) = Ans a -> paddable a) by (intros a Z; rewrite D in Z; discriminate).
    destruct (dns_reply (b_ask R Key b r) (b_size R Key b) (b_optlen R Key b) (b_truncate R Key b) (sane_pad w b S) (w_addr w) (sane_addr w b S) id t (l_allowed l) al src tls q A O W P) as (_ & B & _).
    exact (B NQ Y D). }
  intros NQ Y D P.
  destruct (dns_reply (b_ask R Key b r) (b_size R Key b) (b_optlen R Key b) (b_truncate R Key b) (sane_pad w b S) (w_addr w) (sane_addr w b S) id t (l_allowed l) al src tls q A O W P) as (_ & _ & B).
  destruct (B NQ Y D) as (a & m & E1 & E2 & E3). exists a, m. split; [exact E1|]. split; [apply G; exact E2|exact E3].
Qed.
End P.
