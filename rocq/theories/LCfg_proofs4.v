(** Proofs for LCfg_model.v: DoH, DoQ and ODoH listeners, the admin service. *)
From Verif Require Import Base Bytes Base_proofs Dns Net Cidr_model Cidr_spec Net_spec Modifiers_spec Router_model Router_proofs Addr_model Addr_spec
  RunNs_model XDial_model LSock_model Listener_model Listener_spec Listener_proofs Listener_proofs2.
From Verif Require Tls_model Odoh_model Odoh_spec Odoh_proofs Listener_proofs3.
From Verif Require Import LCfg_model LCfg_spec LCfg_proofs LCfg_proofs2 LCfg_proofs3.
Local Open Scope string_scope.
Local Open Scope bool_scope.

Lemma Forall2_imp' {A B} (P Q : A -> B -> Prop) l l' : (forall a b, P a b -> Q a b) -> Forall2 P l l' -> Forall2 Q l l'.
Proof. intros H. induction 1; constructor; auto. Qed.

Section P.
Context {R CA Cert Key : Type}.
Variable w : world R CA Cert Key.
Variable b : lib R Key.
Notation srv := (serve R CA Cert Key w b).
Hypothesis S : sane w b.
Notation ask := (b_ask R Key b).
Notation EX := (extractClientAddress (b_host R Key b) (w_ip w)).
Notation DH r := (dohHandler (b_ask R Key b r) (b_size R Key b) (b_optlen R Key b) (b_unpack R Key b) (b_pack R Key b) (b_base64 R Key b) (b_host R Key b) (w_ip w)).

Lemma server_name_fun h n n' : server_name h n -> server_name h n' -> n = n'.
Proof. intros [[A ->]|(d & A)] [[B ->]|(d' & B)]; congruence. Qed.
Lemma http_ok' l id r h al px : parseCIDRList (w_addr w) (l_allowed l) = Some al -> http_reply w b l id r h (EX px h) (DH r (DohOpt id al px) h).
Proof.
  intros A. destruct (Listener_proofs3.doh_invalid (ask r) (b_size R Key b) (b_optlen R Key b) (b_unpack R Key b) (b_pack R Key b) (b_base64 R Key b) (b_host R Key b) (w_ip w) (DohOpt id al px) h) as [I1 I2].
  destruct (Listener_proofs3.doh_acl (ask r) (b_size R Key b) (b_optlen R Key b) (b_unpack R Key b) (b_pack R Key b) (b_base64 R Key b) (b_host R Key b) (w_ip w) (sane_pad w b S)
    (w_addr w) (sane_addr w b S) (sane_ip w b S) (sane_none w b S) id (l_allowed l) al px h A) as [_ ACL].
  split; [exact I1|]. intros o Q. destruct (I2 o Q) as (J1 & J2 & J3). split; [intros U; apply J1; left; exact U|]. intros q U.
  split; [intros NQ; apply J1; right; exists q; auto|]. split; [intros NQ; exact (J2 q U NQ)|]. intros NQ E. cbn [do_proxy] in J3.
  split; [intros X; exact (J3 q U NQ E X)|].
  pose proof (sane_unpack w b S o q U) as W. split.
  - intros X N. exact (proj2 (ACL o q Q U NQ E X W) N).
  - intros X Y name SN ci.
    pose proof (fun P => Listener_proofs3.doh_reply (ask r) (b_size R Key b) (b_optlen R Key b) (b_unpack R Key b) (b_pack R Key b) (b_base64 R Key b) (b_host R Key b) (w_ip w) (sane_pad w b S)
      (w_addr w) (sane_addr w b S) (sane_ip w b S) (sane_none w b S) id (l_allowed l) al px h o q name A Q U NQ E X W Y SN P) as Z. cbv zeta in Z. fold ci in Z.
    split.
    + intros D. assert (P : forall a, ask r q ci = Ans a -> paddable a) by (intros a K; rewrite D in K; discriminate). exact (proj1 (Z P) D).
    + intros D P. exact (proj2 (Z P) D).
Qed.

Lemma client_ex l h x n : proxy_net R CA Cert Key w (l_proxy l) = Some n -> client_address w b l h x -> EX n h = x.
Proof.
  unfold proxy_net, parse_net_opt. destruct (String.eqb_spec (l_proxy l) "") as [E|E].
  - intros H C. injection H as <-. rewrite address_none. destruct C as [(X & _)|[_ ->]]; [contradiction|reflexivity].
  - destruct (parse_net (w_addr w) (l_proxy l)) as [net|] eqn:PN; [|discriminate]. cbn [option_map]. intros H. injection H as <-.
    destruct (address_proxy (b_host R Key b) (w_ip w) (w_addr w) (sane_ip w b S) (sane_none w b S) (sane_addr w b S) (l_proxy l) net h PN) as [A B].
    intros [(_ & X & Y & F)|[N ->]].
    + apply A; [split; [exact X|exact Y]|exact F].
    + apply B. intros [[X Y] (y & F)]. apply (N y). split; [exact E|]. split; [exact X|]. split; [exact Y|exact F].
Qed.
Lemma doh_ok id l ln h host path x : made w id l ln -> is l ["doh"] -> client_address w b l h x ->
  exists r out, w_resolver w (l_resolver l) = Some r /\ srv id ln (AHttp h host path) = Ran Key out /\ http_reply w b l id r h x out.
Proof.
  intros M E C. apply is1 in E. destruct (made_doh w id l ln M E) as (o & r & c & t & n & (al & ns & A & _ & _ & ->) & RR & _ & PN & _ & _ & ->).
  exists r. eexists. split; [exact RR|]. split; [reflexivity|]. cbn [o_allowed]. rewrite <- (client_ex l h x n PN C). apply http_ok'. exact A.
Qed.

Lemma doq_ok id l ln src tls streams : made w id l ln -> is l ["doq"] -> src = [] \/ ip_ok src ->
  exists r outs, w_resolver w (l_resolver l) = Some r /\ srv id ln (AConn src tls streams) = Streams Key outs /\
  (~ served w l src -> outs = []) /\ (served w l src -> Forall2 (stream_reply b r (Client src "" tls id)) streams outs).
Proof.
  intros M E O. apply is1 in E. destruct (made_doq w id l ln M E) as (o & r & c & (al & ns & A & _ & _ & ->) & RR & _ & ->).
  exists r. eexists. split; [exact RR|]. split; [reflexivity|]. cbn [o_allowed].
  destruct (Listener_proofs3.doq_acl (ask r) (b_unpack R Key b) (b_pack R Key b) (w_addr w) (sane_addr w b S) id (l_allowed l) al src tls streams A O) as [N Y].
  split; [exact N|]. intros V. eapply Forall2_imp'; [|exact (Y V)]. intros [hs data] out ->. cbn [fst snd]. split.
  - apply (Listener_proofs3.doq_noquery (ask r) (b_unpack R Key b) (b_pack R Key b) (sane_unpack w b S)).
  - cbn [fst snd]. intros p q F U NQ K H.
    exact (Listener_proofs3.doq_reply (ask r) (b_unpack R Key b) (b_pack R Key b) (sane_unpack w b S) (Client src "" tls id) hs data p q F U NQ K H).
Qed.

(** *** ODoH *)
Lemma odoh_target id l ln h host path : made w id l ln -> is l ["odoh"] -> In (l_mode l) [""; "target"; "dual"] -> h_path h = "/dns-query" ->
  exists r k rnd out, w_resolver w (l_resolver l) = Some r /\ has_key w l rnd k /\ srv id ln (AHttp h host path) = Ran Key out /\
  (oblivious h -> target_reply b id r k h out) /\
  (h_method h <> "POST" \/ h_ctype h = "application/dns-message" -> (l_doh l = false -> out = ([], Status 405)) /\ (l_doh l = true -> http_reply w b l id r h (peer w b h) out)) /\
  (h_method h = "POST" -> ~ In (h_ctype h) ["application/oblivious-dns-message"; "application/dns-message"] -> out = ([], Status 405)).
Proof.
  intros M E MO PA. apply is1 in E. destruct (made_odoh w id l ln M E) as (o & r & c & k & rnd & (al & ns & A & _ & _ & ->) & RR & _ & K & ->).
  assert (RT : Odoh_model.route (Odoh_model.handlers (l_mode l)) (h_path h) = Some Odoh_model.HQuery).
  { apply Odoh_proofs.modes. split; [exact PA|]. cbn in MO. destruct MO as [<-|[<-|[<-|[]]]]; auto. }
  exists r, k, rnd. eexists. split; [exact RR|]. split; [exact K|]. split; [cbn [serve]; rewrite RT; reflexivity|]. cbn [o_allowed].
  split; [|split].
  - intros (P1 & P2 & P3 & P4). split.
    + intros p q D U NQ d name T. 
      exact (Listener_proofs3.odoh_reply (ask r) (b_size R Key b) (b_optlen R Key b) (b_unpack R Key b) (b_pack R Key b) (b_base64 R Key b) (b_host R Key b) (w_ip w) (b_decrypt R Key b k) (b_encrypt R Key b k (h_body h))
        id (l_doh l) al h p q d name (conj P1 P2) P3 P4 D U NQ T).
    + intros N. apply Listener_proofs3.odoh_invalid; [exact (conj P1 P2)|]. intros p q D. rewrite firstn_all2 in D by lia. exact (N p q D).
  - intros P. assert (NO : ~ Listener_proofs3.oblivious h) by (intros [O1 O2]; destruct P as [P|P]; congruence).
    destruct (Listener_proofs3.odoh_plain (ask r) (b_size R Key b) (b_optlen R Key b) (b_unpack R Key b) (b_pack R Key b) (b_base64 R Key b) (b_host R Key b) (w_ip w) (b_decrypt R Key b k) (b_encrypt R Key b k (h_body h))
        id (l_doh l) al h NO) as [B1 B2].
    split; [intros D; apply B1; left; exact D|]. intros D. rewrite (B2 D P). unfold peer. rewrite <- (address_none (b_host R Key b) (w_ip w) h). apply http_ok'. exact A.
  - intros P N. assert (NO : ~ Listener_proofs3.oblivious h) by (intros [O1 O2]; apply N; rewrite O2; cbn; tauto).
    apply (Listener_proofs3.odoh_plain (ask r) (b_size R Key b) (b_optlen R Key b) (b_unpack R Key b) (b_pack R Key b) (b_base64 R Key b) (b_host R Key b) (w_ip w) (b_decrypt R Key b k) (b_encrypt R Key b k (h_body h))
        id (l_doh l) al h NO). right. split; [exact P|]. intros X. apply N. rewrite X. cbn. tauto.
Qed.
Lemma odoh_config id l ln h host path : made w id l ln -> is l ["odoh"] -> In (l_mode l) [""; "target"; "dual"] -> h_path h = "/.well-known/odohconfigs" ->
  exists k rnd, has_key w l rnd k /\ srv id ln (AHttp h host path) = Config Key k /\
  forall h' host' path' out, h_path h' = "/dns-query" -> oblivious h' -> srv id ln (AHttp h' host' path') = Ran Key out ->
    exists r, w_resolver w (l_resolver l) = Some r /\ target_reply b id r k h' out.
Proof.
  intros M E MO PA. pose proof M as M0. apply is1 in E. destruct (made_odoh w id l ln M E) as (o & r & c & k & rnd & B & RR & _ & K & X). exists k, rnd. split; [exact K|].
  assert (RT : Odoh_model.route (Odoh_model.handlers (l_mode l)) (h_path h) = Some Odoh_model.HConfig).
  { apply Odoh_proofs.modes. split; [exact PA|]. cbn in MO. destruct MO as [<-|[<-|[<-|[]]]]; auto. }
  rewrite X. split; [cbn [serve]; rewrite RT; reflexivity|]. intros h' host' path' out PA' (P1 & P2 & P3 & P4) H.
  assert (RT' : Odoh_model.route (Odoh_model.handlers (l_mode l)) (h_path h') = Some Odoh_model.HQuery).
  { apply Odoh_proofs.modes. split; [exact PA'|]. cbn in MO. destruct MO as [<-|[<-|[<-|[]]]]; auto. }
  cbn [serve] in H. rewrite RT' in H. injection H as <-. exists r. split; [exact RR|]. split.
  - intros p q D U NQ d name T.
    exact (Listener_proofs3.odoh_reply (ask r) (b_size R Key b) (b_optlen R Key b) (b_unpack R Key b) (b_pack R Key b) (b_base64 R Key b) (b_host R Key b) (w_ip w) (b_decrypt R Key b k) (b_encrypt R Key b k (h_body h'))
        id (l_doh l) (o_allowed o) h' p q d name (conj P1 P2) P3 P4 D U NQ T).
  - intros N. apply Listener_proofs3.odoh_invalid; [exact (conj P1 P2)|]. intros p q D. rewrite firstn_all2 in D by lia. exact (N p q D).
Qed.
Lemma odoh_proxy id l ln h host path : made w id l ln -> is l ["odoh"] -> In (l_mode l) ["proxy"; "dual"] -> h_path h = "/proxy" ->
  exists fs out, srv id ln (AHttp h host path) = Relayed Key (fs, out) /\
  (Odoh_spec.acceptable (proxied w b h host path) -> exists f, Odoh_spec.sent (proxied w b h host path) f /\ fs = [f] /\ out = Odoh_model.relay (b_do R Key b f)) /\
  (~ Odoh_spec.acceptable (proxied w b h host path) -> fs = [] /\ exists n, out = Odoh_model.PStatus n /\ (n = 400 \/ n = 405)%N).
Proof.
  intros M E MO PA. apply is1 in E. destruct (made_odoh w id l ln M E) as (o & r & c & k & rnd & B & RR & _ & K & ->).
  assert (RT : Odoh_model.route (Odoh_model.handlers (l_mode l)) (h_path h) = Some Odoh_model.HProxy).
  { apply Odoh_proofs.modes. split; [exact PA|]. cbn in MO. destruct MO as [<-|[<-|[]]]; auto. }
  cbn [serve]. rewrite RT. fold (peer w b h). fold (proxied w b h host path).
  destruct (Odoh_model.ODoHproxyHandler (b_do R Key b) (o_allowed o) (proxied w b h host path)) as [fs out] eqn:H. exists fs, out. split; [reflexivity|]. split.
  - intros Y. destruct (Odoh_proofs.handler_ok (b_do R Key b) (o_allowed o) _ Y) as (f & X & Z). rewrite Z in H. injection H as <- <-. exists f. auto.
  - intros N. destruct (Odoh_proofs.handler_no (b_do R Key b) (o_allowed o) _ N) as (n & Z & X). rewrite Z in H. injection H as <- <-. split; [reflexivity|]. exists n. auto.
Qed.
Lemma odoh_else id l ln h host path : made w id l ln -> is l ["odoh"] ->
  ~ (h_path h = "/proxy" /\ In (l_mode l) ["proxy"; "dual"]) -> ~ (In (h_path h) ["/dns-query"; "/.well-known/odohconfigs"] /\ In (l_mode l) [""; "target"; "dual"]) ->
  srv id ln (AHttp h host path) = NotFound Key.
Proof.
  intros M E N1 N2. apply is1 in E. destruct (made_odoh w id l ln M E) as (o & r & c & k & rnd & B & RR & _ & K & ->). cbn [serve].
  destruct (Odoh_proofs.modes (l_mode l) (h_path h)) as (A1 & A2 & A3).
  destruct (Odoh_model.route (Odoh_model.handlers (l_mode l)) (h_path h)) as [[| |]|]; [exfalso|exfalso|exfalso|reflexivity].
  - apply N1. destruct (proj1 A1 eq_refl) as [X Y]. split; [exact X|]. cbn. destruct Y as [->| ->]; tauto.
  - apply N2. destruct (proj1 A2 eq_refl) as [X Y]. split; [rewrite X; cbn; tauto|]. cbn. destruct Y as [->|[->| ->]]; tauto.
  - apply N2. destruct (proj1 A3 eq_refl) as [X Y]. split; [rewrite X; cbn; tauto|]. cbn. destruct Y as [->|[->| ->]]; tauto.
Qed.
Lemma admin_ok id l ln h host path : made w id l ln -> is l ["admin"] ->
  (h_path h = "/routedns/vars" -> srv id ln (AHttp h host path) = Metrics Key) /\ (h_path h <> "/routedns/vars" -> srv id ln (AHttp h host path) = NotFound Key).
Proof.
  intros M E. apply is1 in E. destruct (made_admin w id l ln M E) as (o & c & t & _ & _ & _ & ->). cbn [serve].
  destruct (String.eqb_spec (h_path h) "/routedns/vars"); split; intros; congruence.
Qed.
Lemma key_seed l rnd rnd' k k' : l_seed l <> "" -> has_key w l rnd k -> has_key w l rnd' k' -> k = k'.
Proof. intros E (o & A & _ & B) (o' & A' & _ & B'). specialize (A E). specialize (A' E). congruence. Qed.
Lemma key_rand l rnd k : l_seed l = "" -> (has_key w l rnd k <-> exists o, rnd = Some o /\ w_pair w o = Some k).
Proof.
  intros E. split.
  - intros (o & _ & A & B). exists o. auto.
  - intros (o & A & B). exists o. split; [congruence|auto].
Qed.
End P.
