(** Proofs for LCfg_model.v: when settings are accepted, and the listener made for them. *)
From Verif Require Import Base Bytes Base_proofs Dns Net Cidr_model Cidr_spec Cidr_proofs3 Net_spec Router_model Router_proofs Addr_model Addr_spec Addr_proofs
  RunNs_model XDial_model LSock_model LSock_spec LSock_proofs Tls_spec Tls_proofs Listener_model Listener_spec.
From Verif Require Tls_model Odoh_model.
From Verif Require Import LCfg_model LCfg_spec.
Local Open Scope string_scope.
Local Open Scope bool_scope.

Lemma all_some_total {A B} (f : A -> option B) l : (exists r, all_some f l = Some r) <-> Forall (fun x => exists y, f x = Some y) l.
Proof.
  induction l as [|x l IH]; cbn [all_some].
  - split; [constructor|exists []; reflexivity].
  - split.
    + intros (r & H). destruct (f x) as [y|] eqn:E; [|discriminate]. destruct (all_some f l) as [ys|]; [|discriminate]. constructor; [exists y; exact E|apply IH; exists ys; reflexivity].
    + intros H. inversion H as [|? ? (y & E) T]; subst. apply IH in T. destruct T as (ys & T). rewrite E, T. eexists. reflexivity.
Qed.
Lemma net_total parseAddr : parse_ok parseAddr -> forall s, (exists n, parse_net parseAddr s = Some n) <-> exists a p, net_text parseAddr s a p.
Proof.
  intros PO s. split.
  - intros (n & H). destruct (parse_net_spec parseAddr PO s n H) as (a & p & T & _). exists a, p. exact T.
  - intros (a & p & x & d & v & -> & C & A & D & L & ->). unfold parse_net, parseCIDR.
    assert (X : cut_slash (x ++ String "/" d) = Some (x, d)) by (apply cut_slash_some; split; [reflexivity|exact C]). rewrite X, A.
    assert (Y : dtoi d = Some v). { apply dtoi_decimal; [|exact D]. pose proof (proj1 (PO _ _ A)) as (_ & Z). lia. }
    rewrite Y. cbv zeta. apply N.leb_le in L. rewrite L. eexists. reflexivity.
Qed.

Section P.
Context {R CA Cert Key : Type}.
Variable w : world R CA Cert Key.
Notation inst := (instantiateListener R CA Cert Key w).
Notation bld := (build R CA Cert Key w).
Notation lopt := (fun l a n => LOpts a n (SockOpts (l_mark l) (l_bindif l))).

Lemma named_iff l : named l <-> String.eqb (if prefix "/" (l_netns l) then "" else l_netns l) "" = false.
Proof.
  unfold named. destruct (l_netns l) as [|c s]; cbn [prefix].
  - split; [intros (c & s & H & _); discriminate|discriminate].
  - destruct (ascii_dec "/" c) as [<-|N].
    + split; [intros (c & s' & H & X); injection H as <- _; congruence|]. destruct s; discriminate.
    + split; [reflexivity|]. intros _. exists c, s. split; [reflexivity|congruence].
Qed.
Lemma named_ns l : named l -> (if prefix "/" (l_netns l) then "" else l_netns l) = l_netns l.
Proof.
  intros (c & s & -> & N). cbn [prefix]. destruct (ascii_dec "/" c); [congruence|reflexivity].
Qed.
Lemma ipv_iff l : negb (Z.eqb (l_ipv l) 4) && negb (Z.eqb (l_ipv l) 6) && negb (Z.eqb (l_ipv l) 0) = false <-> (l_ipv l = 0 \/ l_ipv l = 4 \/ l_ipv l = 6)%Z.
Proof. lia. Qed.
Lemma ns_iff n x : (exists ns, buildNetNS n x = Some ns) <-> n = "" \/ x = "".
Proof.
  unfold buildNetNS. destruct (String.eqb_spec n ""), (String.eqb_spec x ""); cbn [negb andb]; split; intros H; auto; try (eexists; reflexivity).
  - destruct H; discriminate. - destruct H; congruence.
Qed.

Lemma inst_iff id l rnd p : inst id l rnd = Some p <->
  exists allowed ns bl, (l_protocol l <> "admin" -> w_resolver w (l_resolver l) <> None) /\ parseCIDRList (w_addr w) (l_allowed l) = Some allowed /\
    (l_ipv l = 0 \/ l_ipv l = 4 \/ l_ipv l = 6)%Z /\ buildNetNS (l_netns l) (l_xsocket l) = Some ns /\
    bld l (lopt l allowed ns) (w_resolver w (l_resolver l)) = Some bl /\
    (named l -> p = Pending R CA Cert Key id (l_netns l) bl None) /\
    (~ named l -> exists ln, bl rnd = Some ln /\ p = Pending R CA Cert Key id "" bl (Some ln)).
Proof.
  unfold instantiateListener. cbv zeta.
  assert (RI : (match w_resolver w (l_resolver l) with None => true | _ => false end) && negb (String.eqb (l_protocol l) "admin") = false <->
               (l_protocol l <> "admin" -> w_resolver w (l_resolver l) <> None)).
  { destruct (w_resolver w (l_resolver l)); destruct (String.eqb_spec (l_protocol l) "admin"); cbn [negb andb]; split; try congruence; intros H; try reflexivity; try (intros; congruence).
    exfalso. apply H; [assumption|reflexivity]. }
  destruct ((match w_resolver w (l_resolver l) with None => true | _ => false end) && negb (String.eqb (l_protocol l) "admin")) eqn:E1.
  { split; [discriminate|]. intros (allowed & ns & bl & H & _). apply RI in H. discriminate. }
  destruct (parseCIDRList (w_addr w) (l_allowed l)) as [al|] eqn:E2; [|split; [discriminate|intros (allowed & ns & bl & _ & H & _); discriminate]].
  destruct (negb (Z.eqb (l_ipv l) 4) && negb (Z.eqb (l_ipv l) 6) && negb (Z.eqb (l_ipv l) 0)) eqn:E3.
  { split; [discriminate|]. intros (allowed & ns & bl & _ & _ & H & _). apply ipv_iff in H. congruence. }
  destruct (buildNetNS (l_netns l) (l_xsocket l)) as [n|] eqn:E4; [|split; [discriminate|intros (allowed & ns & bl & _ & _ & _ & H & _); discriminate]].
  destruct (bld l (lopt l al n) (w_resolver w (l_resolver l))) as [f|] eqn:E5.
  2: { split; [discriminate|]. intros (allowed & ns & bl & _ & H1 & _ & H2 & H3 & _). injection H1 as <-. injection H2 as <-. congruence. }
  apply RI in E1 || pose proof (proj1 RI eq_refl) as E1'. apply ipv_iff in E3.
  destruct (String.eqb (if prefix "/" (l_netns l) then "" else l_netns l) "") eqn:E6.
  - assert (N : ~ named l) by (intros X; apply named_iff in X; congruence). apply String.eqb_eq in E6. rewrite E6. split.
    + destruct (f rnd) as [ln|] eqn:F; [|discriminate]. intros H. injection H as <-. exists al, n, f. repeat (split; [tauto||assumption||reflexivity|]).
      intros _. exists ln. split; [exact F|reflexivity].
    + intros (allowed & ns & bl & _ & H1 & _ & H2 & H3 & _ & H4). injection H1 as <-. injection H2 as <-. rewrite E5 in H3. injection H3 as <-.
      destruct (H4 N) as (ln & F & ->). rewrite F. reflexivity.
  - assert (N : named l) by (apply named_iff; exact E6). rewrite (named_ns l N). split.
    + intros H. injection H as <-. exists al, n, f. repeat (split; [tauto||assumption||reflexivity|]). intros X. contradiction.
    + intros (allowed & ns & bl & _ & H1 & _ & H2 & H3 & H4 & _). injection H1 as <-. injection H2 as <-. rewrite E5 in H3. injection H3 as <-.
      rewrite (H4 N). reflexivity.
Qed.

Lemma tls_total l : (exists c, server_conf R CA Cert Key w l = Some c) <-> exists p x, files w l p x.
Proof.
  unfold server_conf, files. split.
  - intros (c & H). apply server_iff in H. destruct H as (p & x & A & B & C & _). exists p, x. auto.
  - intros (p & x & A & B & C). eexists. apply server_iff. exists p, x. auto.
Qed.
Lemma dtls_total l : (exists c, dtls_conf R CA Cert Key w l = Some c) <-> exists p x, files w l p x.
Proof.
  unfold dtls_conf, files. split.
  - intros (c & H). apply dserver_iff in H. destruct H as (p & x & A & B & C & _). exists p, x. auto.
  - intros (p & x & A & B & C). eexists. apply dserver_iff. exists p, x. auto.
Qed.
Lemma transport_iff t : (exists t', transport t = Some t') <-> In t [""; "tcp"; "quic"].
Proof.
  unfold transport. destruct (String.eqb_spec t "tcp") as [->|A]; [cbn; split; [tauto|eexists; reflexivity]|].
  destruct (String.eqb_spec t "") as [->|B]; [cbn; split; [tauto|eexists; reflexivity]|].
  destruct (String.eqb_spec t "quic") as [->|C]; [cbn; split; [tauto|eexists; reflexivity]|].
  cbn. split; [intros (t' & H); discriminate|]. intros [H|[H|[H|[]]]]; congruence.
Qed.
Lemma key_iff l rnd k : getKeyPair R CA Cert Key w (l_seed l) rnd = Some k <-> has_key w l rnd k.
Proof.
  unfold getKeyPair, has_key. destruct (String.eqb_spec (l_seed l) "") as [E|E]; cbn [negb].
  - split.
    + destruct rnd as [o|]; [|discriminate]. intros H. exists o. split; [congruence|]. split; [reflexivity|exact H].
    + intros (o & _ & A & B). rewrite (A E). exact B.
  - split.
    + destruct (w_hex w (l_seed l)) as [o|]; [|discriminate]. intros H. exists o. split; [reflexivity|]. split; [congruence|exact H].
    + intros (o & A & _ & B). rewrite (A E). exact B.
Qed.

(** The eight protocols *)
Definition known : list string := ["tcp"; "udp"; "admin"; "dot"; "dtls"; "doh"; "doq"; "odoh"].
Lemma bld_unknown l o r : ~ is l known -> bld l o r = None.
Proof.
  unfold is, build. intros N.
  repeat match goal with |- context [String.eqb (l_protocol l) ?s] => destruct (String.eqb_spec (l_protocol l) s) as [E|_]; [exfalso; apply N; rewrite E; cbn; tauto|] end.
  reflexivity.
Qed.
Lemma is_iff l names : is l names <-> existsb (String.eqb (l_protocol l)) names = true.
Proof.
  unfold is. rewrite existsb_exists. split; [intros H; exists (l_protocol l); split; [exact H|apply String.eqb_refl]|].
  intros (x & I & H). apply String.eqb_eq in H. rewrite H. exact I.
Qed.
(** Decide memberships of a known protocol *)
Ltac settle E := rewrite ?is_iff, ?E in *; cbn [existsb String.eqb Ascii.eqb Bool.eqb orb] in *.

Lemma proxy_total s : parse_ok (w_addr w) -> (exists n, proxy_net R CA Cert Key w s = Some n) <-> (s <> "" -> network w s).
Proof.
  intros PO. unfold proxy_net, parse_net_opt. destruct (String.eqb_spec s "") as [E|E].
  - split; [congruence|]. intros _. eexists. reflexivity.
  - rewrite <- (net_total (w_addr w) PO s). destruct (parse_net (w_addr w) s) as [n|]; cbn [option_map].
    + split; [intros _ _; exists n; reflexivity|intros _; eexists; reflexivity].
    + split; [intros (n & H); discriminate|]. intros H. destruct (H E) as (n & X). discriminate.
Qed.

Lemma bld_total l o res : parse_ok (w_addr w) -> (exists bl, bld l o res = Some bl) <->
  is l known /\ (~ is l ["admin"] -> res <> None) /\ (secured l -> exists p x, files w l p x) /\
  (is l ["doh"] -> (l_notls l = true -> l_transport l <> "quic") /\ (l_proxy l <> "" -> network w (l_proxy l))).
Proof.
  intros PO. destruct (in_dec string_dec (l_protocol l) known) as [I|N].
  2: { rewrite (bld_unknown l o res N). split; [intros (? & H); discriminate|]. unfold is at 1. tauto. }
  pose proof (tls_total l) as T. pose proof (dtls_total l) as D. pose proof (proxy_total (l_proxy l) PO) as X.
  assert (RES : res <> None <-> exists r, res = Some r) by (destruct res; split; [eexists; reflexivity|discriminate|congruence|intros (? & H); discriminate]).
  unfold known in I.
  destruct I as [E|[E|[E|[E|[E|[E|[E|[E|[]]]]]]]]]; symmetry in E; unfold build, secured, known; settle E;
    (split; [intros (bl & H)|intros (_ & A & B & C)]).
  (* no TLS *)
  1,3: destruct res as [r|]; [|discriminate]; split; [reflexivity|]; split; [discriminate|]; split; [intros [Y|[Y _]]; discriminate|discriminate].
  1,2: destruct res as [r|]; [eexists; reflexivity|exfalso; apply A; [discriminate|reflexivity]].
  (* admin *)
  { destruct (server_conf R CA Cert Key w l) as [c|]; [|discriminate]. split; [reflexivity|]. split; [intros Y; exfalso; apply Y; reflexivity|].
    split; [|discriminate]. intros _. apply T. exists c. reflexivity. }
  { destruct (proj2 T (B (or_introl eq_refl))) as (c & ->). eexists. reflexivity. }
  (* dot, dtls *)
  1,3: destruct res as [r|]; [|discriminate]; split; [reflexivity|]; split; [discriminate|]; split; [intros _|discriminate].
  { apply T. destruct (server_conf R CA Cert Key w l) as [c|]; [exists c; reflexivity|discriminate]. }
  { apply D. destruct (dtls_conf R CA Cert Key w l) as [c|]; [exists c; reflexivity|discriminate]. }
  1,2: destruct res as [r|]; [|exfalso; apply A; [discriminate|reflexivity]].
  { destruct (proj2 T (B (or_introl eq_refl))) as (c & ->). eexists. reflexivity. }
  { destruct (proj2 D (B (or_introl eq_refl))) as (c & ->). eexists. reflexivity. }
  (* doh *)
  { destruct res as [r|]; [|discriminate]. split; [reflexivity|]. split; [discriminate|].
    destruct (l_notls l) eqn:NT.
    - split; [intros [Y|[_ Y]]; discriminate|]. destruct (String.eqb_spec (l_transport l) "quic") as [Y|Y]; [discriminate|]. intros _. split; [intros _; exact Y|].
      apply X. destruct (proxy_net R CA Cert Key w (l_proxy l)) as [n|]; [exists n; reflexivity|discriminate].
    - destruct (server_conf R CA Cert Key w l) as [c|]; [|discriminate]. cbn [option_map] in H. split; [intros _; apply T; exists c; reflexivity|].
      intros _. split; [discriminate|]. apply X. destruct (proxy_net R CA Cert Key w (l_proxy l)) as [n|]; [exists n; reflexivity|discriminate]. }
  { destruct res as [r|]; [|exfalso; apply A; [discriminate|reflexivity]]. destruct (C eq_refl) as [C1 C2]. apply X in C2. destruct C2 as (n & ->).
    destruct (l_notls l).
    - destruct (String.eqb_spec (l_transport l) "quic") as [Y|Y]; [exfalso; exact (C1 eq_refl Y)|]. eexists. reflexivity.
    - destruct (proj2 T (B (or_intror (conj eq_refl eq_refl)))) as (c & ->). eexists. reflexivity. }
  (* doq, odoh *)
  1,3: destruct res as [r|]; [|discriminate]; split; [reflexivity|]; split; [discriminate|]; split; [intros _|discriminate];
       apply T; destruct (server_conf R CA Cert Key w l) as [c|]; [exists c; reflexivity|discriminate].
  1,2: destruct res as [r|]; [|exfalso; apply A; [discriminate|reflexivity]]; destruct (proj2 T (B (or_introl eq_refl))) as (c & ->); eexists; reflexivity.
Qed.
Lemma bld_makes l o res bl rnd : bld l o res = Some bl -> (exists ln, bl rnd = Some ln) <-> makeable w l rnd.
Proof.
  destruct (in_dec string_dec (l_protocol l) known) as [I|N]; [|rewrite (bld_unknown l o res N); discriminate].
  unfold makeable. intros H. unfold build in H.
  assert (ADM : forall t (f : string -> listener R CA Cert Key), (exists ln, option_map f (transport t) = Some ln) <-> In t [""; "tcp"; "quic"]).
  { intros t f. rewrite <- transport_iff. destruct (transport t) as [t'|]; cbn [option_map]; split; intros (y & Y); try discriminate; eexists; reflexivity. }
  assert (EASY : forall ln : listener R CA Cert Key, exists ln', Some ln = Some ln') by (intros ln; exists ln; reflexivity).
  unfold known in I. destruct I as [E|[E|[E|[E|[E|[E|[E|[E|[]]]]]]]]]; symmetry in E; settle E.
  1,2,4,5,7: destruct res as [r|]; [|discriminate]; try (destruct (server_conf R CA Cert Key w l) as [c|]; [|discriminate]); try (destruct (dtls_conf R CA Cert Key w l) as [c|]; [|discriminate]);
    injection H as <-; (split; [intros _; split; discriminate|intros _; apply EASY]).
  - destruct (server_conf R CA Cert Key w l) as [c|]; [|discriminate]. injection H as <-. unfold newAdmin. rewrite ADM. split; [intros Y; split; [intros _; exact Y|discriminate]|].
    intros [Y _]. exact (Y eq_refl).
  - destruct res as [r|]; [|discriminate].
    destruct (if l_notls l then if String.eqb (l_transport l) "quic" then None else Some None else option_map Some (server_conf R CA Cert Key w l)) as [c|]; [|discriminate].
    destruct (proxy_net R CA Cert Key w (l_proxy l)) as [n|]; [|discriminate]. injection H as <-. unfold newDoH. rewrite ADM. split; [intros Y; split; [intros _; exact Y|discriminate]|].
    intros [Y _]. exact (Y eq_refl).
  - destruct res as [r|]; [|discriminate]. destruct (server_conf R CA Cert Key w l) as [c|]; [|discriminate]. injection H as <-. unfold newODoH.
    split.
    + intros (ln & Y). split; [discriminate|]. intros _. destruct (getKeyPair R CA Cert Key w (l_seed l) rnd) as [k|] eqn:K; [|discriminate]. exists k. apply key_iff. exact K.
    + intros [_ Y]. destruct (Y eq_refl) as (k & K). apply key_iff in K. rewrite K. eexists. reflexivity.
Qed.

Lemma starts id l rnd : parse_ok (w_addr w) -> (exists p, started w id l rnd p) <-> acceptable w l /\ (~ named l -> makeable w l rnd).
Proof.
  intros PO. unfold started. split.
  - intros (p & H). apply inst_iff in H. destruct H as (al & ns & bl & A & B & C & D & E & F & G).
    assert (T : exists f, bld l (lopt l al ns) (w_resolver w (l_resolver l)) = Some f) by (exists bl; exact E).
    apply bld_total in T; [|exact PO]. destruct T as (T1 & T2 & T3 & T4). split.
    + unfold acceptable. repeat split; try assumption; try tauto.
      * assert (X : exists r, all_some (parse_net (w_addr w)) (l_allowed l) = Some r) by (exists al; exact B).
        apply all_some_total in X. eapply Forall_impl; [|exact X]. intros s Y. apply net_total; assumption.
      * apply ns_iff. exists ns. exact D.
    + intros N. destruct (G N) as (ln & X & _). apply (bld_makes _ _ _ _ rnd E). exists ln. exact X.
  - intros ((A & B & C & D & E & F & G) & M).
    assert (X : exists al, parseCIDRList (w_addr w) (l_allowed l) = Some al).
    { apply all_some_total. eapply Forall_impl; [|exact C]. intros s Y. apply net_total; assumption. }
    destruct X as (al & X). apply ns_iff in E. destruct E as (ns & E).
    assert (T : exists f, bld l (lopt l al ns) (w_resolver w (l_resolver l)) = Some f) by (apply bld_total; auto).
    destruct T as (bl & T).
    assert (B' : l_protocol l <> "admin" -> w_resolver w (l_resolver l) <> None) by (intros Y; apply B; intros [Z|[]]; congruence).
    destruct (String.eqb (if prefix "/" (l_netns l) then "" else l_netns l) "") eqn:NM.
    + assert (N : ~ named l) by (intros Y; apply named_iff in Y; congruence).
      destruct (proj2 (bld_makes _ _ _ _ rnd T) (M N)) as (ln & Y). exists (Pending R CA Cert Key id "" bl (Some ln)). apply inst_iff.
      exists al, ns, bl. repeat (split; [tauto||assumption|]). intros _. exists ln. split; [exact Y|reflexivity].
    + apply named_iff in NM. exists (Pending R CA Cert Key id (l_netns l) bl None). apply inst_iff. exists al, ns, bl. repeat (split; [tauto||assumption||reflexivity|]). intros Y. contradiction.
Qed.
Lemma pended id l rnd p : started w id l rnd p -> p_id R CA Cert Key p = id /\
  (named l -> p_ns R CA Cert Key p = l_netns l /\ p_ln R CA Cert Key p = None) /\
  (~ named l -> p_ns R CA Cert Key p = "" /\ exists ln, p_ln R CA Cert Key p = Some ln /\ p_build R CA Cert Key p rnd = Some ln) /\
  forall rnd', (exists ln, p_build R CA Cert Key p rnd' = Some ln) <-> makeable w l rnd'.
Proof.
  intros H. apply inst_iff in H. destruct H as (al & ns & bl & A & B & C & D & E & F & G).
  destruct (String.eqb (if prefix "/" (l_netns l) then "" else l_netns l) "") eqn:NM.
  - assert (N : ~ named l) by (intros Y; apply named_iff in Y; congruence). destruct (G N) as (ln & X & ->). cbn.
    split; [reflexivity|]. split; [tauto|]. split; [intros _; split; [reflexivity|exists ln; auto]|]. intros rnd'. exact (bld_makes _ _ _ _ rnd' E).
  - apply named_iff in NM. rewrite (F NM). cbn. split; [reflexivity|]. split; [auto|]. split; [tauto|]. intros rnd'. exact (bld_makes _ _ _ _ rnd' E).
Qed.
End P.
