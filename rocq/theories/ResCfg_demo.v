(** Concrete settings of resolvers for the examples beside C90, and what fails *)
From Verif Require Import Base Bytes Net Cidr_spec Net_spec Router_model Addr_model Addr_spec Base_proofs Net_proofs Addr_proofs RunNs_model XDial_model LSock_model Hostname_spec Hostname_model Hostname_proofs ListCfg_model Tls_spec ResCfg_model ResCfg_spec ResCfg_proofs ResCfg_proofs2 ResCfg_proofs3.
From Verif Require Tls_model Client_model.
Local Open Scope string_scope.

Section P.
Context {CA Cert : Type}.
Variable w : world CA Cert.
(** Which resolvers never use a proxy *)
Lemma unproxied r c a e : made w r = Some c -> In (r_protocol r) ["doq"; "dtls"; "odoh"] \/ (r_protocol r = "doh" /\ r_transport r = "quic") ->
  connection w c a = Some e -> e_asked e = None /\ exists k, e_conns e = [k].
Proof.
  assert (QS : forall q x e, quic_send CA Cert w q x = Some e -> e_asked e = None /\ exists k, e_conns e = [k]).
  { intros q x e' H. unfold quic_send in H. destruct (w_udp w x) as [(ip, port)|]; [|discriminate]. injection H as <-. split; [reflexivity|eexists; reflexivity]. }
  assert (TD : forall t x e, (forall idle o, t = OverTcp idle o -> t_dialer o = None) -> transport_dial CA Cert w t x = Some e -> e_asked e = None /\ exists k, e_conns e = [k]).
  { intros t x e' T H. destruct t as [idle o|idle q o early]; unfold transport_dial in H.
    - specialize (T idle o eq_refl). unfold doh_dial in H. destruct (custom o); cbn [negb] in H.
      + destruct (bootstrapped (t_boot o) x) as [y|]; [|discriminate]. rewrite T in H. destruct (dial _ _ _ _ _ _ _) as (a', l).
        destruct (usesXSocket (t_ns o)); [destruct (t_ns o); [|discriminate]|destruct (run_place (t_ns o)); [|discriminate]]; injection H as <-; (split; [reflexivity|eexists; reflexivity]).
      + injection H as <-. split; [reflexivity|eexists; reflexivity].
    - unfold doh3_dial in H. destruct (bootstrapped (t_boot o) x) as [y|]; [|discriminate]. exact (QS _ _ _ H). }
  intros M [I|(E & TQ)] C.
  - cbn [In] in I. destruct I as [K|[K|[K|[]]]]; symmetry in K; revert M.
    + rewrite (made_doq w r K). destruct (buildNetNS _ _) as [ns|]; [|discriminate]. destruct (Tls_model.TLSClientConfig _ _ _ _ _ _ _ _) as [t|]; [|discriminate]. unfold newDoQClient. destruct (valid_endpoint _ _ _ _); [|discriminate].
      destruct (SplitHostPort _) as [(h, p)|]; [|discriminate]. destruct (quic_sockets _ _ _ _ _ _ _ _ _ _); [|discriminate]. intros [= <-]. exact (QS _ _ _ C).
    + rewrite (made_dtls w r K). destruct (buildNetNS _ _) as [ns|]; [|discriminate]. destruct (Tls_model.DTLSClientConfig _ _ _ _ _ _ _) as [t|]; [|discriminate]. unfold newDTLSClient. destruct (valid_endpoint _ _ _ _); [|discriminate].
      destruct (SplitHostPort _) as [(h, p)|]; [|discriminate]. destruct (atoi p); [|discriminate]. cbv zeta.
      assert (DT : forall la ra t' n t2 o, connection w (CDtls CA Cert la ra t' n t2 ns o) a = Some e -> e_asked e = None /\ exists k, e_conns e = [k]).
      { intros la ra t' n t2 o. unfold connection, connect, dtls_dial. destruct (listenInNetNS _ _ _ _ _); [|discriminate]. intros [= <-]. split; [reflexivity|eexists; reflexivity]. }
      destruct (String.eqb (r_boot r) ""); [destruct (w_lookup w h)|destruct (w_ip w (r_boot r))]; try discriminate; intros [= <-]; exact (DT _ _ _ _ _ _ C).
    + rewrite (made_odoh w r K). destruct (buildNetNS _ _) as [ns|]; [|discriminate]. destruct (Tls_model.TLSClientConfig _ _ _ _ _ _ _ _) as [t|]; [|discriminate]. unfold newODoHClient. destruct (newDoHClient _ _ _ _ _ _ _ _) as [d|] eqn:N; [|discriminate]. destruct (w_url w (o_target r)); [|discriminate]. intros [= <-].
      destruct (newdoh_cases w r _ _ _ _ _ _ _ N) as (m & _ & _ & _ & _ & [(_ & _ & T)|(_ & u1 & q & _ & _ & _ & T)]); (eapply TD; [|exact C]); rewrite T; [intros idle o [= _ <-]; reflexivity|discriminate].
  - revert M. rewrite (made_doh w r E). destruct (buildNetNS _ _) as [ns|]; [|discriminate]. destruct (Tls_model.TLSClientConfig _ _ _ _ _ _ _ _) as [t|]; [|discriminate]. destruct (newDoHClient _ _ _ _ _ _ _ _) as [d|] eqn:N; [|discriminate]. intros [= <-].
    destruct (newdoh_cases w r _ _ _ _ _ _ _ N) as (m & _ & _ & _ & _ & [(K & _)|(_ & u & q & _ & _ & _ & T)]); [contradiction|]. eapply TD; [|exact C]. rewrite T. discriminate.
Qed.
End P.

Definition ip4 (n : N) : bytes := [0; 0; 0; 0; 0; 0; 0; 0; 0; 0; 255; 255; 192; 0; 2; n]%N.
Definition ip6 (n : N) : bytes := [32; 1; 13; 184; 0; 0; 0; 0; 0; 0; 0; 0; 0; 0; 0; n]%N.
Definition demo_ips : list (string * bytes) := [("192.0.2.1", ip4 1); ("192.0.2.7", ip4 7); ("2001:db8::1", ip6 1); ("2001:db8::7", ip6 7)].
Definition demo_parse (s : string) : bytes := match find (fun p => String.eqb s (fst p)) demo_ips with Some p => snd p | None => [] end.
Definition demo_show (ip : bytes) : string :=
  match find (fun p => if list_eq_dec N.eq_dec ip (snd p) then true else false) demo_ips with
  | Some p => fst p | None => if v4b ip then "192.0.2.1" else "2001:db8::1" end.
Definition demo_lookup (h : string) : list bytes :=
  if String.eqb h "dns.example" then [ip4 1] else if String.eqb h "dual.example" then [ip4 1; ip6 1] else match demo_parse h with [] => [] | ip => [ip] end.
Definition demo_url (s : string) : option url := if contains "%" s then None else Some (Url "dns.example" "" s (fun h => "https://" ++ h ++ "/q")).
Definition demo_udp (x : string) : option (bytes * Z) :=
  match SplitHostPort x with
  | None => None
  | Some (h, p) => match demo_lookup h, atoi p with ip :: _, Some n => Some (ip, n) | _, _ => None end
  end.
Definition demo_w : world string string :=
  World demo_url (fun _ => "/q") demo_parse demo_show demo_lookup (fun h => filter v4b (demo_lookup h)) demo_udp (fun s => if contains "%" s then None else Some ["dns"])
        (fun _ => true) (fun f => if String.eqb f "ca.pem" then Some ["ca"] else None) (fun crt key => if String.eqb crt "c.pem" then Some key else None) (fun _ => "192.0.2.7:4000").

Lemma demo_parse_in s : demo_parse s = [] \/ In (s, demo_parse s) demo_ips.
Proof.
  unfold demo_parse. destruct (find _ demo_ips) as [p|] eqn:F; [right|left; reflexivity]. apply find_some in F. destruct F as (I & E). apply String.eqb_eq in E. subst s. destruct p. exact I.
Qed.
Lemma demo_ok p : In p demo_ips -> snd p <> [] /\ ip_ok (snd p) /\ plain (fst p) /\ demo_parse (fst p) = snd p /\ demo_show (snd p) = fst p.
Proof.
  intros I. cbn [In demo_ips] in I.
  destruct I as [<-|[<-|[<-|[<-|[]]]]]; (split; [discriminate|]; split; [split; [repeat constructor|right; reflexivity]|]; split; [split; apply without_iff; reflexivity|]; split; reflexivity).
Qed.
Lemma demo_lookup_ok h ip : In ip (demo_lookup h) -> ip <> [] /\ ip_ok ip.
Proof.
  assert (F : ip_ok (ip4 1) /\ ip_ok (ip6 1)) by (split; (split; [repeat constructor|right; reflexivity])).
  unfold demo_lookup. destruct (String.eqb h "dns.example"); [intros [<-|[]]; split; [discriminate|apply F]|].
  destruct (String.eqb h "dual.example"); [intros [<-|[<-|[]]]; (split; [discriminate|apply F])|].
  destruct (demo_parse_in h) as [E|I]; [rewrite E; intros []|]. destruct (demo_ok _ I) as (A & B & _). cbn [snd] in A, B. destruct (demo_parse h); [contradiction|]. intros [<-|[]]. auto.
Qed.
Lemma demo_sane : sane demo_w.
Proof.
  constructor; cbn [w_ip w_lookup w_lookup4 w_show demo_w].
  - reflexivity.
  - intros s. destruct (demo_parse_in s) as [E|I]; [left; exact E|right]. exact (proj1 (proj2 (demo_ok _ I))).
  - exact demo_lookup_ok.
  - intros h ip I. apply filter_In in I. exact (demo_lookup_ok h ip (proj1 I)).
  - intros ip N O. unfold demo_show. destruct (find (fun p => if list_eq_dec N.eq_dec ip (snd p) then true else false) demo_ips) as [p|] eqn:F.
    + apply find_some in F. destruct F as (I & E). destruct (list_eq_dec N.eq_dec ip (snd p)) as [->|]; [|discriminate]. destruct (demo_ok _ I) as (A & B & C & D & _). change (plain (fst p) /\ demo_parse (fst p) <> [] /\ (is_v4 (demo_parse (fst p)) <-> is_v4 (snd p))). split; [exact C|]. split; [intros K; apply A; rewrite <- K; symmetry; exact D|]. assert (D' : is_v4 (demo_parse (fst p)) = is_v4 (snd p)) by (f_equal; exact D). rewrite D'. reflexivity.
    + pose proof (v4b_iff ip O) as V. destruct (v4b ip).
      * split; [split; apply without_iff; reflexivity|]. split; [discriminate|]. split; intros _; [apply V; reflexivity|]. right. split; reflexivity.
      * split; [split; apply without_iff; reflexivity|]. split; [discriminate|]. split; intros K; [|apply V in K; discriminate].
        exfalso. apply (v4b_iff (ip6 1)) in K; [discriminate K|]. split; [repeat constructor|right; reflexivity].
  - intros s N. destruct (demo_parse_in s) as [E|I]; [contradiction|]. destruct (demo_ok _ I) as (A & B & C & D & E). cbn [fst snd] in D, E. rewrite E. reflexivity.
Qed.
(** [demo protocol address transport boot local local4 local6 netns mark proxy] *)
Definition demo (protocol address transport boot local local4 local6 netns : string) (mark : N) (proxy : string) : settings :=
  Settings address protocol transport "" 0 "ca.pem" "k.pem" "c.pem" "" boot local local4 local6 1232 5 netns "" mark "" proxy "u" "p" false false "https://t.example/q" "".
Definition demo_reach (r : settings) (a : string) : option reach := match made demo_w r with Some c => connection demo_w c a | None => None end.

(** ** What fails *)
Lemma proxy_ignored : forall proto transport, In (proto, transport) [("doq", ""); ("dtls", ""); ("odoh", ""); ("doh", "quic")] ->
  exists r e, r_protocol r = proto /\ r_transport r = transport /\ p_address r = "192.0.2.7:1080" /\ demo_reach r "dns.example:443" = Some e /\ e_asked e = None /\
    forall k, In k (e_conns e) -> n_peer k <> Text (p_address r).
Proof.
  intros proto transport [[= <- <-]|[[= <- <-]|[[= <- <-]|[[= <- <-]|[]]]]].
  - exists (demo "doq" "dns.example" "" "" "" "" "" "" 0 "192.0.2.7:1080"). eexists. split; [reflexivity|]. split; [reflexivity|]. split; [reflexivity|]. split; [vm_compute; reflexivity|]. split; [reflexivity|]. intros k [<-|[]]. discriminate.
  - exists (demo "dtls" "dns.example" "" "" "" "" "" "" 0 "192.0.2.7:1080"). eexists. split; [reflexivity|]. split; [reflexivity|]. split; [reflexivity|]. split; [vm_compute; reflexivity|]. split; [reflexivity|]. intros k [<-|[]]. discriminate.
  - exists (demo "odoh" "https://dns.example/q" "" "" "" "" "" "" 0 "192.0.2.7:1080"). eexists. split; [reflexivity|]. split; [reflexivity|]. split; [reflexivity|]. split; [vm_compute; reflexivity|]. split; [reflexivity|]. intros k [<-|[]]. discriminate.
  - exists (demo "doh" "https://dns.example/q" "quic" "" "" "" "" "" 0 "192.0.2.7:1080"). eexists. split; [reflexivity|]. split; [reflexivity|]. split; [reflexivity|]. split; [vm_compute; reflexivity|]. split; [reflexivity|]. intros k [<-|[]]. discriminate.
Qed.
Lemma bootstrap_ignored : exists r k, r_protocol r = "tcp" /\ r_boot r = "192.0.2.7" /\ demo_reach r "" = Some (Reach [k] None) /\ n_peer k = Text "192.0.2.1:53".
Proof. exists (demo "tcp" "dns.example" "" "192.0.2.7" "" "" "" "" 0 ""). eexists. split; [reflexivity|]. split; [reflexivity|]. split; [vm_compute; reflexivity|reflexivity]. Qed.
Lemma local_ignored : exists r k, r_local r = "192.0.2.300" /\ w_ip demo_w (r_local r) = [] /\ demo_reach r "" = Some (Reach [k] None) /\ n_local k = [].
Proof. exists (demo "udp" "dns.example" "" "" "192.0.2.300" "" "" "" 0 ""). eexists. split; [reflexivity|]. split; [reflexivity|]. split; [vm_compute; reflexivity|reflexivity]. Qed.
Lemma local_of_target : exists r k ks ask, p_address r = "[2001:db8::7]:1080" /\ w_ip demo_w (r_local6 r) = ip6 7 /\
  demo_reach r "" = Some (Reach (k :: ks) ask) /\ n_peer k = Text (p_address r) /\ n_local k = ip4 7.
Proof. exists (demo "tcp" "192.0.2.1" "" "" "" "192.0.2.7" "2001:db8::7" "" 0 "[2001:db8::7]:1080"). do 3 eexists. split; [reflexivity|]. split; [reflexivity|]. split; [vm_compute; reflexivity|]. split; reflexivity. Qed.
Lemma quic_wrong_family : exists r k, w_ip demo_w (r_local6 r) = ip6 7 /\ w_ip demo_w (r_local r) = ip4 7 /\ demo_reach r "" = Some (Reach [k] None) /\ n_peer k = Ip (ip4 1) 8853 /\ n_local k = ip6 7.
Proof. exists (demo "doq" "dns.example" "" "" "192.0.2.7" "" "2001:db8::7" "" 0 ""). eexists. split; [reflexivity|]. split; [reflexivity|]. split; [vm_compute; reflexivity|]. split; reflexivity. Qed.
Lemma leaves_ns : exists r k ks ask, r_netns r = "blue" /\ r_mark r = 1%N /\ both_families demo_w (p_address r) /\ demo_reach r "" = Some (Reach (k :: ks) ask) /\ n_place k = Here.
Proof.
  exists (demo "tcp" "dns.example" "" "" "" "" "" "blue" 1 "dual.example:1080"). do 3 eexists. split; [reflexivity|]. split; [reflexivity|]. split; [|split; [vm_compute; reflexivity|reflexivity]].
  exists "dual.example", "1080". split; [apply split_iff; reflexivity|]. split; [reflexivity|]. split.
  - exists (ip4 1). split; [left; reflexivity|]. right. split; reflexivity.
  - exists (ip6 1). split; [right; left; reflexivity|]. intros K. apply (v4b_iff (ip6 1)) in K; [discriminate K|]. split; [repeat constructor|right; reflexivity].
Qed.
