(** Dialing. *)
From Verif Require Import Base Bytes Net Cidr_spec Net_spec Router_model Addr_model Addr_spec Base_proofs Net_proofs Addr_proofs RunNs_model XDial_model LSock_model Hostname_spec Hostname_model Hostname_proofs ListCfg_model ResCfg_model ResCfg_spec.
From Verif Require Tls_model Client_model.
Local Open Scope string_scope.

Section P.
Context {CA Cert : Type}.
Variable w : world CA Cert.
Hypothesis SANE : sane w.

(** ** Addresses *)
Lemma split_of s h p : hostport s h p -> SplitHostPort s = Some (h, p).
Proof. apply split_iff. Qed.
Lemma awd_server r d h p : server r d h p -> without ":" d -> plain d -> SplitHostPort (AddressWithDefault (w_url w) (r_address r) d) = Some (h, p).
Proof.
  intros (A & B & [(C & (D1 & D2) & -> & ->)|H]) E (F1 & F2).
  - apply awd_plain_split; assumption.
  - rewrite (awd_kept (w_url w) (r_address r) (r_address r) "" d).
    + apply split_of. exact H.
    + split; [symmetry; apply string_app_nil_r|auto].
    + exact A.
    + intros K. destruct H as (_ & [(H & _)|H]); [exact (K _ _ H)|].
      apply (K ("[" ++ h ++ "]") p). rewrite H. cbn. f_equal. clear. induction h as [|c h IH]; cbn; [reflexivity|]. rewrite <- IH. reflexivity.
Qed.
Lemma v4b_iff ip : ip_ok ip -> (v4b ip = true <-> is_v4 ip).
Proof.
  intros O. unfold v4b. destruct (v4_or ip O) as [(L & T)|[(M & L & T)|(N & L & T)]]; rewrite T.
  - split; [intros _; left; exact L|reflexivity].
  - split; [intros _; right; exact M|reflexivity].
  - split; [discriminate|intros K; contradiction].
Qed.
Lemma join_hostport h x p0 : hostport x h p0 -> forall h', plain h' -> hostport (JoinHostPort h' p0) h' p0.
Proof. intros ((A & B & C & _) & _) h' (D & E). apply split_iff. apply join_split_host; assumption. Qed.

(** selectLocalAddr for an address of which the host is known *)
Lemma select_host x t p g v4 v6 o : hostport x t p -> literal w t o -> local_for o g v4 v6 (selectLocalAddr (w_ip w) x g v4 v6).
Proof.
  intros H L. pose proof (select_ok (w_ip w) x g v4 v6 (sane_none w SANE) (sane_ip w SANE)) as S.
  unfold known in S. rewrite (split_of _ _ _ H) in S. destruct L as [(E & ->)|(E & ->)].
  - rewrite E in S. exact S.
  - destruct (w_ip w t) as [|b l]; [contradiction|]. exact S.
Qed.
Lemma local_family ip ip' g v4 v6 got : (is_v4 ip' <-> is_v4 ip) -> local_for (Some ip') g v4 v6 got -> local_for (Some ip) g v4 v6 got.
Proof. intros E (A & B). split; intros K; [apply A|apply B]; tauto. Qed.

(** dial *)
Lemma dialled address t p g v4 v6 : hostport address t p ->
  exists t' o, resolved w (w_lookup w) t t' /\ stands w t o /\
    hostport (fst (dial (w_ip w) (w_show w) (w_lookup w) address g v4 v6)) t' p /\
    local_for o g v4 v6 (snd (dial (w_ip w) (w_show w) (w_lookup w) address g v4 v6)) /\
    forall network l, races CA Cert w network (fst (dial (w_ip w) (w_show w) (w_lookup w) address g v4 v6)) l = false.
Proof.
  intros H. unfold dial. cbn [fst snd]. pose proof (resolve_ok (w_ip w) (w_show w) (w_lookup w) address) as R. rewrite (split_of _ _ _ H) in R.
  destruct R as (R1 & R2). unfold races.
  destruct (w_ip w t) as [|b l0] eqn:E.
  - destruct (w_lookup w t) as [|ip l] eqn:K.
    + rewrite R1 by auto. exists t, None. split; [left; auto|]. split; [right; right; auto|]. split; [exact H|].
      split; [apply (select_host _ _ _ _ _ _ _ H); left; auto|]. intros. rewrite (split_of _ _ _ H), E, K. destruct l; cbn; apply andb_false_r.
    + rewrite (R2 ip l eq_refl eq_refl). destruct (sane_lookup w SANE t ip) as (N & O); [rewrite K; left; reflexivity|].
      destruct (sane_show w SANE ip N O) as (P & S & F).
      assert (J : hostport (JoinHostPort (w_show w ip) p) (w_show w ip) p) by (apply (join_hostport _ _ p H); exact P).
      exists (w_show w ip), (Some ip). split; [right; split; [exact E|exists ip, l; auto]|]. split; [right; left; split; [exact E|exists ip, l; auto]|].
      split; [exact J|]. split; [apply (local_family _ _ _ _ _ _ F); apply (select_host _ _ _ _ _ _ _ J); right; auto|].
      intros. rewrite (split_of _ _ _ J). destruct (w_ip w (w_show w ip)); [contradiction|]. apply andb_false_r.
  - rewrite R1 by (left; discriminate). exists t, (Some (w_ip w t)). assert (NE : w_ip w t <> []) by (rewrite E; discriminate).
    split; [left; split; [left; exact NE|reflexivity]|]. split; [left; auto|]. split; [exact H|].
    split; [apply (select_host _ _ _ _ _ _ _ H); right; auto|]. intros. rewrite (split_of _ _ _ H), E. apply andb_false_r.
Qed.

(** ** Namespaces *)
Definition ns_of (r : settings) (ns : option netns) : Prop :=
  (r_netns r = "" /\ r_xsocket r = "" /\ ns = None) \/ (r_netns r <> "" /\ r_xsocket r = "" /\ ns = Some (NetNS (r_netns r) "")) \/
  (r_netns r = "" /\ r_xsocket r <> "" /\ ns = Some (NetNS "" (r_xsocket r))).
Lemma build_iff r ns : buildNetNS (r_netns r) (r_xsocket r) = Some ns <-> ns_of r ns.
Proof.
  unfold buildNetNS, ns_of. destruct (String.eqb_spec (r_netns r) "") as [->|N], (String.eqb_spec (r_xsocket r) "") as [->|X]; cbn [negb andb].
  - split; [intros [= <-]; auto|intros [(_ & _ & ->)|[(H & _)|(_ & H & _)]]; [reflexivity|contradiction|contradiction]].
  - split; [intros [= <-]; auto 6|intros [(_ & H & _)|[(H & _)|(_ & _ & ->)]]; [contradiction|contradiction|reflexivity]].
  - split; [intros [= <-]; auto 6|intros [(H & _)|[(_ & _ & ->)|(_ & H & _)]]; [contradiction|reflexivity|contradiction]].
  - split; [discriminate|intros [(H & _)|[(_ & H & _)|(H & _)]]; contradiction].
Qed.
Lemma build_some r : (exists ns, buildNetNS (r_netns r) (r_xsocket r) = Some ns) <-> one_way r.
Proof.
  unfold one_way. split.
  - intros (ns & H). apply build_iff in H. destruct H as [(H & _)|[(_ & H & _)|(H & _)]]; auto.
  - intros H. destruct (String.eqb_spec (r_netns r) "") as [E|N], (String.eqb_spec (r_xsocket r) "") as [F|X].
    + exists None. apply build_iff. left. auto.
    + exists (Some (NetNS "" (r_xsocket r))). apply build_iff. right. right. auto.
    + exists (Some (NetNS (r_netns r) "")). apply build_iff. right. left. auto.
    + destruct H; contradiction.
Qed.
(** Where things are *)
Lemma ns_where r ns : ns_of r ns ->
  (isSet ns = false /\ usesXSocket ns = false /\ run_place ns = Some Here /\ r_netns r = "" /\ placed r Here /\ ns = None) \/
  (isSet ns = true /\ usesXSocket ns = false /\ run_place ns = Some (InNs (r_netns r)) /\ placed r (InNs (r_netns r))) \/
  (isSet ns = true /\ usesXSocket ns = true /\ ns = Some (NetNS "" (r_xsocket r)) /\ r_netns r = "" /\ placed r (XSock (r_xsocket r))).
Proof.
  unfold placed. intros [(A & B & ->)|[(A & B & ->)|(A & B & ->)]].
  - left. cbn. auto 9.
  - right. left. unfold isSet, usesXSocket, run_place, how_to_run, usesXSocket. cbn [ns_name ns_xsocket]. apply String.eqb_neq in A as A'. rewrite A'. cbn. auto 9.
  - right. right. unfold isSet, usesXSocket, run_place, how_to_run, usesXSocket. cbn [ns_name ns_xsocket]. apply String.eqb_neq in B as B'. rewrite B'. cbn. auto 9.
Qed.
Lemma inactive r : active (options r) = false <-> options r = SockOpts 0 "".
Proof.
  unfold active, options. cbn [o_mark o_bind]. split.
  - intros H. apply orb_false_iff in H. destruct H as (A & B). apply negb_false_iff, String.eqb_eq in B. apply N.ltb_ge in A. f_equal; [lia|exact B].
  - intros [= -> ->]. reflexivity.
Qed.

(** ** SOCKS5 *)
Definition socks_of (r : settings) (ns : option netns) : socks :=
  Socks (p_address r) (p_user r) (p_password r) 5000000000 0 (SOpt (w_ip w (r_local r)) (w_ip w (r_local4 r)) (w_ip w (r_local6 r)) (p_resolve r)) ns (options r).
Lemma once_asked r address t p : hostport address t p -> exists t', asked w r t t' /\
  hostport (once (w_ip w) (w_show w) (w_lookup4 w) (SOpt (w_ip w (r_local r)) (w_ip w (r_local4 r)) (w_ip w (r_local6 r)) (p_resolve r)) address) t' p.
Proof.
  intros H. unfold once, asked. cbn [s_resolve]. destruct (p_resolve r); [|exists t; auto]. rewrite (split_of _ _ _ H).
  destruct (w_ip w t) as [|b l0] eqn:E.
  - destruct (w_lookup4 w t) as [|ip l] eqn:K.
    + exists t. split; [right; split; [reflexivity|left; auto]|exact H].
    + destruct (sane_lookup4 w SANE t ip) as (N & O); [rewrite K; left; reflexivity|]. destruct (sane_show w SANE ip N O) as (P & _).
      exists (w_show w ip). split; [right; split; [reflexivity|right; split; [exact E|exists ip, l; auto]]|]. apply (join_hostport _ _ p H). exact P.
  - exists t. split; [right; split; [reflexivity|left; split; [left; rewrite E; discriminate|reflexivity]]|exact H].
Qed.
Lemma literal_is t : exists o, literal w t o.
Proof. unfold literal. destruct (w_ip w t) as [|b l]; [exists None; auto|exists (Some (b :: l)); right; split; [discriminate|reflexivity]]. Qed.
(** The local address survives the way through the library *)
Lemma source_back r x : let l := selectLocalAddr (w_ip w) x (w_ip w (r_local r)) (w_ip w (r_local4 r)) (w_ip w (r_local6 r)) in
  socks5LocalIP (w_ip w) (source (w_show w) l) = l.
Proof.
  intros l. assert (K : l = [] \/ exists s, l = w_ip w s /\ w_ip w s <> []).
  { subst l. unfold selectLocalAddr.
    assert (Z : forall s, w_ip w s = [] \/ exists s', w_ip w s = w_ip w s' /\ w_ip w s' <> []) by (intros s; destruct (w_ip w s) eqn:E; [auto|right; exists s; rewrite E; split; [reflexivity|discriminate]]).
    destruct (w_ip w _); [apply Z|]. destruct (to4 _).
    - destruct (w_ip w (r_local4 r)) eqn:E; [apply Z|right; exists (r_local4 r); rewrite E; split; [reflexivity|discriminate]].
    - destruct (w_ip w (r_local6 r)) eqn:E; [apply Z|right; exists (r_local6 r); rewrite E; split; [reflexivity|discriminate]]. }
  destruct K as [->|(s & -> & N)]; [reflexivity|].
  unfold source. destruct (w_ip w s) as [|b l0] eqn:E; [contradiction|]. rewrite <- E. apply local_roundtrip.
  - apply (sane_again w SANE). rewrite E. discriminate.
  - destruct (sane_ip w SANE s) as [F|O]; [rewrite F in E; discriminate|].
    destruct (sane_show w SANE (w_ip w s)) as ((P1 & P2) & _); [rewrite E; discriminate|exact O|]. split; assumption.
Qed.

(** Sockets of the hook are proper, if the caller is where they are to be *)
Definition called (r : settings) (ns : option netns) (p : place) : Prop := usesXSocket ns = true \/ placed r p.
Lemma hook_place r ns p network laddr raddr : ns_of r ns -> called r ns p ->
  (races CA Cert w network raddr (socks5LocalIP (w_ip w) laddr) = false \/ r_netns r = "" \/ options r = SockOpts 0 "") ->
  let k := socks_hook CA Cert w (socks_of r ns) p network laddr raddr in
  proper r k /\ n_type k = kind network /\ n_local k = socks5LocalIP (w_ip w) laddr /\ n_peer k = Text raddr.
Proof.
  intros H C R. cbv zeta. unfold socks_hook, socks_of. cbn [s_ns s_opts]. unfold proper.
  destruct (ns_where r ns H) as [(_ & X & _ & NN & PH & NE)|[(_ & X & _ & P)|(_ & X & E & _ & P)]]; rewrite X.
  - destruct C as [C|C]; [congruence|]. destruct (active (options r)) eqn:A.
    + unfold netDial. cbn [n_place n_opts n_type n_local n_peer]. repeat split; auto. destruct (races _ _ _ _ _ _); assumption.
    + apply inactive in A. cbn [n_place n_opts n_type n_local n_peer]. rewrite A. repeat split; auto.
  - destruct C as [C|C]; [congruence|]. destruct (active (options r)) eqn:A.
    + unfold netDial. cbn [n_place n_opts n_type n_local n_peer]. repeat split; auto. destruct R as [R|[R|R]].
      * rewrite R. exact C.
      * destruct (races _ _ _ _ _ _); [|exact C]. unfold placed in *. destruct C as [(_ & B & _)|[(B & _)|(_ & B & _)]]; [left; auto|contradiction|].
        destruct P as [(_ & Q & _)|[(Q & _)|(_ & _ & [=])]]; [rewrite Q in B; contradiction|contradiction].
      * apply inactive in R. congruence.
    + apply inactive in A. cbn [n_place n_opts n_type n_local n_peer]. rewrite A. repeat split; auto.
  - rewrite E. cbn [ns_xsocket n_place n_opts n_type n_local n_peer]. repeat split; auto.
Qed.
Lemma no_race network address l : (network = "tcp" -> ~ both_families w address) -> races CA Cert w network address l = false.
Proof.
  intros B. unfold races. destruct (SplitHostPort address) as [[h p]|] eqn:S; [|reflexivity].
  destruct (String.eqb_spec network "tcp") as [T|]; [|reflexivity]. specialize (B T). cbn [andb].
  destruct (w_ip w h) eqn:E; [|reflexivity]. destruct l; [|reflexivity].
  destruct (existsb v4b (w_lookup w h)) eqn:A1; [|reflexivity]. cbn [andb]. destruct (existsb (fun ip => negb (v4b ip)) (w_lookup w h)) eqn:A2; [|reflexivity].
  exfalso. apply B. apply existsb_exists in A1, A2. destruct A1 as (i1 & I1 & V1). destruct A2 as (i2 & I2 & V2).
  exists h, p. split; [apply split_iff; exact S|]. split; [exact E|]. split.
  - exists i1. split; [exact I1|]. apply v4b_iff; [|exact V1]. apply (sane_lookup w SANE h i1 I1).
  - exists i2. split; [exact I2|]. intros K. apply v4b_iff in K; [|apply (sane_lookup w SANE h i2 I2)]. rewrite K in V2. discriminate.
Qed.
End P.
