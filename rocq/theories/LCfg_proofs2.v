(** Proofs for LCfg_model.v: the socket of the listener, its TLS configuration, and what it does with requests. *)
From Verif Require Import Base Bytes Base_proofs Dns Net Cidr_model Cidr_spec Net_spec Modifiers_spec Router_model Addr_model Addr_spec Addr_proofs
  RunNs_model XDial_model XDial_spec LSock_model LSock_spec LSock_proofs Tls_spec Tls_proofs Listener_model Listener_spec Listener_proofs.
From Verif Require Tls_model Odoh_model Odoh_spec Odoh_proofs.
From Verif Require Import LCfg_model LCfg_spec LCfg_proofs.
Local Open Scope string_scope.
Local Open Scope bool_scope.

Section P.
Context {R CA Cert Key : Type}.
Variable w : world R CA Cert Key.
Notation inst := (instantiateListener R CA Cert Key w).
Notation bld := (build R CA Cert Key w).
Notation lopt := (fun l a n => LOpts a n (SockOpts (l_mark l) (l_bindif l))).
Notation AWD := (AddressWithDefault (w_url w)).
Notation NET := networkForIPVersion.

(** What every listener has *)
Definition basis (l : settings) (o : lopts) : Prop :=
  exists al ns, parseCIDRList (w_addr w) (l_allowed l) = Some al /\ (l_ipv l = 0 \/ l_ipv l = 4 \/ l_ipv l = 6)%Z /\
    buildNetNS (l_netns l) (l_xsocket l) = Some ns /\ o = LOpts al ns (SockOpts (l_mark l) (l_bindif l)).
Lemma made_build id l ln : made w id l ln -> exists o bl rnd, basis l o /\ bld l o (w_resolver w (l_resolver l)) = Some bl /\ bl rnd = Some ln.
Proof.
  intros (rnd & p & rnd' & S & M). apply inst_iff in S. destruct S as (al & ns & bl & A & B & C & D & E & F & G).
  exists (lopt l al ns), bl, rnd'. split; [exists al, ns; auto|]. split; [exact E|].
  destruct (String.eqb (if prefix "/" (l_netns l) then "" else l_netns l) "") eqn:NM.
  - assert (N : ~ named l) by (intros Y; apply named_iff in Y; congruence). destruct (G N) as (ln0 & _ & ->). exact M.
  - apply named_iff in NM. rewrite (F NM) in M. exact M.
Qed.

Ltac open H E := apply made_build in H; destruct H as (o & bl & rnd & B & H & M); unfold build in H; rewrite E in H; cbn [String.eqb Ascii.eqb Bool.eqb] in H.
Ltac res H r RR := destruct (w_resolver w (l_resolver _)) as [r|] eqn:RR in H; [|discriminate H].

Lemma made_dns p id l ln : p = "tcp" \/ p = "udp" -> made w id l ln -> l_protocol l = p ->
  exists o r, basis l o /\ w_resolver w (l_resolver l) = Some r /\ ln = DNSListener R CA Cert Key (NET p (Z.to_N (l_ipv l))) (AWD (l_address l) "53") o r.
Proof.
  intros P H E. destruct P as [-> | ->]; open H E; destruct (w_resolver w (l_resolver l)) as [r|]; try discriminate H; injection H as <-; injection M as <-; exists o, r; auto.
Qed.
Lemma made_admin id l ln : made w id l ln -> l_protocol l = "admin" ->
  exists o c t, basis l o /\ server_conf R CA Cert Key w l = Some c /\ transport (l_transport l) = Some t /\ ln = AdminListener R CA Cert Key (l_address l) o c t.
Proof.
  intros H E. open H E. destruct (server_conf R CA Cert Key w l) as [c|]; [|discriminate H]. injection H as <-. unfold newAdmin in M.
  destruct (transport (l_transport l)) as [t|]; [|discriminate M]. injection M as <-. exists o, c, t. auto.
Qed.
Lemma made_dot id l ln : made w id l ln -> l_protocol l = "dot" ->
  exists o r c, basis l o /\ w_resolver w (l_resolver l) = Some r /\ server_conf R CA Cert Key w l = Some c /\
    ln = DoTListener R CA Cert Key (NET "tcp" (Z.to_N (l_ipv l))) (AWD (l_address l) "853") o c r.
Proof.
  intros H E. open H E. destruct (w_resolver w (l_resolver l)) as [r|]; [|discriminate H]. destruct (server_conf R CA Cert Key w l) as [c|]; [|discriminate H].
  injection H as <-. injection M as <-. exists o, r, c. auto.
Qed.
Lemma made_dtls id l ln : made w id l ln -> l_protocol l = "dtls" ->
  exists o r c, basis l o /\ w_resolver w (l_resolver l) = Some r /\ dtls_conf R CA Cert Key w l = Some c /\ ln = DTLSListener R CA Cert Key (AWD (l_address l) "853") o c r.
Proof.
  intros H E. open H E. destruct (w_resolver w (l_resolver l)) as [r|]; [|discriminate H]. destruct (dtls_conf R CA Cert Key w l) as [c|]; [|discriminate H].
  injection H as <-. injection M as <-. exists o, r, c. auto.
Qed.
Lemma made_doq id l ln : made w id l ln -> l_protocol l = "doq" ->
  exists o r c, basis l o /\ w_resolver w (l_resolver l) = Some r /\ server_conf R CA Cert Key w l = Some c /\ ln = QUICListener R CA Cert Key (AWD (l_address l) "8853") o c r.
Proof.
  intros H E. open H E. destruct (w_resolver w (l_resolver l)) as [r|]; [|discriminate H]. destruct (server_conf R CA Cert Key w l) as [c|]; [|discriminate H].
  injection H as <-. injection M as <-. exists o, r, c. auto.
Qed.
Lemma made_doh id l ln : made w id l ln -> l_protocol l = "doh" ->
  exists o r c t n, basis l o /\ w_resolver w (l_resolver l) = Some r /\ transport (l_transport l) = Some t /\ proxy_net R CA Cert Key w (l_proxy l) = Some n /\
    (l_notls l = true -> c = None /\ l_transport l <> "quic") /\ (l_notls l = false -> exists c', c = Some c' /\ server_conf R CA Cert Key w l = Some c') /\
    ln = DoHListener R CA Cert Key (AWD (l_address l) (if String.eqb (l_transport l) "quic" then "1443" else "443")) o c t n (l_notls l) r.
Proof.
  intros H E. open H E. destruct (w_resolver w (l_resolver l)) as [r|]; [|discriminate H].
  assert (X : exists c, (l_notls l = true -> c = None /\ l_transport l <> "quic") /\ (l_notls l = false -> exists c', c = Some c' /\ server_conf R CA Cert Key w l = Some c') /\
    match proxy_net R CA Cert Key w (l_proxy l) with
    | Some n => Some (fun _ : option bytes => newDoH R CA Cert Key (if String.eqb (l_transport l) "quic" then AWD (l_address l) "1443" else AWD (l_address l) "443") o c (l_transport l) n (l_notls l) r)
    | None => None end = Some bl).
  { destruct (l_notls l).
    - destruct (String.eqb_spec (l_transport l) "quic") as [Y|Y]; [discriminate H|]. exists None. split; [auto|]. split; [discriminate|exact H].
    - destruct (server_conf R CA Cert Key w l) as [c|]; [|discriminate H]. exists (Some c). split; [discriminate|]. split; [intros _; exists c; auto|exact H]. }
  clear H. destruct X as (c & A1 & A2 & H). destruct (proxy_net R CA Cert Key w (l_proxy l)) as [n|]; [|discriminate H]. injection H as <-. unfold newDoH in M.
  destruct (transport (l_transport l)) as [t|]; [|discriminate M]. cbn [option_map] in M. injection M as <-. exists o, r, c, t, n.
  repeat (split; [assumption||reflexivity|]). destruct (String.eqb (l_transport l) "quic"); reflexivity.
Qed.
Lemma made_odoh id l ln : made w id l ln -> l_protocol l = "odoh" ->
  exists o r c k rnd, basis l o /\ w_resolver w (l_resolver l) = Some r /\ server_conf R CA Cert Key w l = Some c /\ has_key w l rnd k /\
    ln = ODoHListener R CA Cert Key (AWD (l_address l) "443") o c (l_mode l) (l_doh l) k r.
Proof.
  intros H E. open H E. destruct (w_resolver w (l_resolver l)) as [r|]; [|discriminate H]. destruct (server_conf R CA Cert Key w l) as [c|]; [|discriminate H].
  injection H as <-. unfold newODoH in M. destruct (getKeyPair R CA Cert Key w (l_seed l) rnd) as [k|] eqn:K; [|discriminate M]. injection M as <-.
  apply key_iff in K. exists o, r, c, k, rnd. auto.
Qed.

(** *** Sockets *)
Lemma is1 l s : is l [s] <-> l_protocol l = s.
Proof. unfold is. cbn. split; [intros [H|[]]; auto|auto]. Qed.
Lemma valid_of l o a : basis l o -> valid (asked l a) /\ buildNetNS (l_netns l) (l_xsocket l) = Some (o_ns o) /\ o_sock o = SockOpts (l_mark l) (l_bindif l) /\
  negb (N.eqb (Z.to_N (l_ipv l)) 4) && negb (N.eqb (Z.to_N (l_ipv l)) 6) && negb (N.eqb (Z.to_N (l_ipv l)) 0) = false.
Proof.
  intros (al & ns & _ & V & N & ->). cbn. split; [|split; [exact N|split; [reflexivity|]]].
  - split; cbn; [destruct V as [->|[->| ->]]; cbn; auto|]. apply ns_iff. exists ns. exact N.
  - destruct V as [->|[->| ->]]; reflexivity.
Qed.
Lemma listens_awd l a d : listens l a -> (forall d', default_port l d' -> d' = d) -> ~ is l ["admin"] -> AWD (l_address l) d = a.
Proof.
  intros [[H _]|(A & B & [(d' & D & C & ->)|(_ & h & p & H & ->)])] F N; [contradiction| |].
  - rewrite (F d' D). apply (awd_plain (w_url w) (l_address l) (l_address l) "" d); [|exact A|exact C]. split; [symmetry; apply string_app_nil_r|auto].
  - apply (awd_kept (w_url w) (l_address l) (l_address l) "" d); [split; [symmetry; apply string_app_nil_r|auto]|exact A|].
    intros X. destruct H as (_ & [(H & _)|H]).
    + apply (X h p). rewrite H. reflexivity.
    + apply (X ("[" ++ h ++ "]") p). rewrite H. rewrite !string_app_assoc. reflexivity.
Qed.
Lemma default_fun l d d' : default_port l d -> default_port l d' -> d = d'.
Proof.
  unfold default_port, is. cbn [In]. intros H H'.
  repeat match goal with H : _ \/ _ |- _ => destruct H | H : _ /\ _ |- _ => destruct H end; try congruence; try contradiction.
Qed.
Lemma quic_t t t' : transport t = Some t' -> String.eqb t' "quic" = String.eqb t "quic".
Proof.
  unfold transport. destruct (String.eqb_spec t "tcp") as [->|A]; [intros H; injection H as <-; reflexivity|].
  destruct (String.eqb_spec t "") as [->|B]; [intros H; injection H as <-; reflexivity|]. cbn [orb].
  destruct (String.eqb_spec t "quic") as [->|C]; [intros H; injection H as <-; reflexivity|discriminate].
Qed.

Definition prot (s : string) : lprot :=
  if String.eqb s "tcp" then PTcp else if String.eqb s "udp" then PUdp else if String.eqb s "admin" then PAdmin else if String.eqb s "dot" then PDot
  else if String.eqb s "dtls" then PDtls else if String.eqb s "doh" then PDoh else if String.eqb s "doq" then PDoq else POdoh.
Lemma start_ls id l ln a : made w id l ln -> listens l a -> Start R CA Cert Key w ln = listener_socket (w_udp w) (w_ip w) (prot (l_protocol l)) (asked l a) /\ valid (asked l a).
Proof.
  intros M L. pose proof M as M0. apply made_build in M0. destruct M0 as (o0 & bl & rnd & B0 & H0 & _). destruct (valid_of l o0 a B0) as (V & _).
  split; [|exact V]. clear B0.
  destruct (in_dec string_dec (l_protocol l) known) as [I|N]; [|rewrite (bld_unknown w l o0 _ N) in H0; discriminate].
  assert (AW : forall d, default_port l d -> l_protocol l <> "admin" -> AWD (l_address l) d = a).
  { intros d D X. apply (listens_awd l a d L); [intros d' D'; exact (default_fun l d' d D' D)|]. rewrite is1. exact X. }
  unfold listener_socket, known in *. destruct I as [E|[E|[E|[E|[E|[E|[E|[E|[]]]]]]]]]; symmetry in E; rewrite E; cbn [prot String.eqb Ascii.eqb Bool.eqb].
  - destruct (made_dns "tcp" id l ln (or_introl eq_refl) M E) as (o & r & B & _ & ->). destruct (valid_of l o a B) as (_ & NS & SO & IV). cbn in NS, IV |- *.
    rewrite IV, NS, SO. rewrite (AW "53"); [reflexivity| |congruence]. unfold default_port, is. rewrite E. cbn. tauto.
  - destruct (made_dns "udp" id l ln (or_intror eq_refl) M E) as (o & r & B & _ & ->). destruct (valid_of l o a B) as (_ & NS & SO & IV). cbn in NS, IV |- *.
    rewrite IV, NS, SO. rewrite (AW "53"); [reflexivity| |congruence]. unfold default_port, is. rewrite E. cbn. tauto.
  - destruct (made_admin id l ln M E) as (o & c & t & B & _ & T & ->). destruct (valid_of l o a B) as (_ & NS & SO & IV). cbn in NS, IV |- *.
    rewrite IV, NS, SO, (quic_t _ _ T). assert (X : a = l_address l). { destruct L as [[_ L]|(_ & _ & [(d & D & _)|(X & _)])]; [exact L| |].
      - exfalso. unfold default_port, is in D. rewrite E in D. cbn [In] in D. intuition discriminate.
      - exfalso. apply X. apply is1. exact E. }
    rewrite X. reflexivity.
  - destruct (made_dot id l ln M E) as (o & r & c & B & _ & _ & ->). destruct (valid_of l o a B) as (_ & NS & SO & IV). cbn in NS, IV |- *.
    rewrite IV, NS, SO. rewrite (AW "853"); [reflexivity| |congruence]. unfold default_port, is. rewrite E. cbn. tauto.
  - destruct (made_dtls id l ln M E) as (o & r & c & B & _ & _ & ->). destruct (valid_of l o a B) as (_ & NS & SO & IV). cbn in NS, IV |- *.
    rewrite IV, NS. rewrite (AW "853"); [reflexivity| |congruence]. unfold default_port, is. rewrite E. cbn. tauto.
  - destruct (made_doh id l ln M E) as (o & r & c & t & n & B & _ & T & _ & _ & _ & ->). destruct (valid_of l o a B) as (_ & NS & SO & IV). cbn in NS, IV |- *.
    rewrite IV, NS, SO, (quic_t _ _ T). destruct (String.eqb_spec (l_transport l) "quic") as [Y|Y];
      (rewrite AW; [reflexivity| |congruence]); unfold default_port, is; rewrite E; cbn; tauto.
  - destruct (made_doq id l ln M E) as (o & r & c & B & _ & _ & ->). destruct (valid_of l o a B) as (_ & NS & SO & IV). cbn in NS, IV |- *.
    rewrite IV, NS, SO. rewrite (AW "8853"); [reflexivity| |congruence]. unfold default_port, is. rewrite E. cbn. tauto.
  - destruct (made_odoh id l ln M E) as (o & r & c & k & rd & B & _ & _ & _ & ->). destruct (valid_of l o a B) as (_ & NS & SO & IV). cbn in NS, IV |- *.
    rewrite IV, NS, SO. rewrite (AW "443"); [reflexivity| |congruence]. unfold default_port, is. rewrite E. cbn. tauto.
Qed.
End P.
