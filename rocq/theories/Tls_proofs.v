From Verif Require Import Base Bytes Net Addr_model Addr_spec Addr_proofs Tls_model Tls_spec.
Local Open Scope string_scope.

Section P.
Variables CA Cert : Type.
Variable pem : string -> option (list CA).
Variable load : string -> string -> option Cert.
Notation pool := (pool CA pem).
Notation pair := (pair Cert load).
Notation SC := (TLSServerConfig CA Cert pem load).
Notation DSC := (DTLSServerConfig CA Cert pem load).
Notation CC := (TLSClientConfig CA Cert pem load).
Notation DCC := (DTLSClientConfig CA Cert pem load).

Lemma pool_iff ca p : pool ca = Some p <-> authorities pem ca p.
Proof.
  unfold Tls_model.pool, authorities. destruct (String.eqb_spec ca "") as [->|N].
  - split; [intros E; left; split; congruence|]. intros [(_ & ->)|(N & _)]; [reflexivity|congruence].
  - destruct (pem ca) as [[|x l]|] eqn:P; split; intros H; try discriminate.
    + destruct H as [(E & _)|(_ & l & E & K & _)]; congruence.
    + right. split; [exact N|]. exists (x :: l). split; [reflexivity|]. split; [discriminate|congruence].
    + destruct H as [(E & _)|(_ & l' & E & K & ->)]; congruence.
    + destruct H as [(E & _)|(_ & l' & E & _)]; congruence.
Qed.
Lemma pair_iff crt key c : pair crt key = Some c <-> presents load crt key c.
Proof.
  unfold Tls_model.pair, presents. destruct (String.eqb_spec crt "") as [->|N1]; cbn [negb andb].
  - split; [intros E; left; split; [auto|congruence]|]. intros [(_ & ->)|(N & _)]; [reflexivity|congruence].
  - destruct (String.eqb_spec key "") as [->|N2]; cbn [negb].
    + split; [intros E; left; split; [auto|congruence]|]. intros [(_ & ->)|(_ & N & _)]; [reflexivity|congruence].
    + destruct (load crt key) as [x|] eqn:L; cbn [option_map].
      * split; [intros E; right; split; [exact N1|]; split; [exact N2|]; exists x; split; congruence|].
        intros [([E|E] & _)|(_ & _ & y & E & ->)]; congruence.
      * split; [discriminate|]. intros [([E|E] & _)|(_ & _ & y & E & _)]; congruence.
Qed.
Lemma server_iff ca crt key m c : SC ca crt key m = Some c <->
  exists p x, authorities pem ca p /\ presents load crt key x /\ (m = true -> ca <> "") /\ c = Conf _ _ m p None x "" 771.
Proof.
  unfold TLSServerConfig. destruct m; destruct (String.eqb_spec ca "") as [E|E]; cbn [andb].
  1: { split; [discriminate|]. intros (p & x & _ & _ & K & _). destruct (K eq_refl E). }
  all: destruct (pool ca) as [p|] eqn:P; [apply pool_iff in P|].
  all: try (split; [discriminate|]; intros (p & x & A & _); apply pool_iff in A; congruence).
  all: destruct (pair crt key) as [x|] eqn:X; [apply pair_iff in X|].
  all: try (split; [discriminate|]; intros (p' & x & _ & B & _); apply pair_iff in B; congruence).
  all: split; [intros K; exists p, x; repeat split; auto; try discriminate; unfold VersionTLS12 in K; congruence|].
  all: intros (p' & x' & A & B & _ & ->); apply pool_iff in A, P; apply pair_iff in B, X; unfold VersionTLS12; congruence.
Qed.
Lemma dserver_iff ca crt key m c : DSC ca crt key m = Some c <->
  exists p x, authorities pem ca p /\ presents load crt key x /\ (m = true -> ca <> "") /\ c = Conf _ _ m p None x "" 0.
Proof.
  unfold DTLSServerConfig. destruct m; destruct (String.eqb_spec ca "") as [E|E]; cbn [andb].
  1: { split; [discriminate|]. intros (p & x & _ & _ & K & _). destruct (K eq_refl E). }
  all: destruct (pool ca) as [p|] eqn:P; [apply pool_iff in P|].
  all: try (split; [discriminate|]; intros (p & x & A & _); apply pool_iff in A; congruence).
  all: destruct (pair crt key) as [x|] eqn:X; [apply pair_iff in X|].
  all: try (split; [discriminate|]; intros (p' & x & _ & B & _); apply pair_iff in B; congruence).
  all: split; [intros K; exists p, x; repeat split; auto; try discriminate; congruence|].
  all: intros (p' & x' & A & B & _ & ->); apply pool_iff in A, P; apply pair_iff in B, X; congruence.
Qed.
Lemma client_iff ca crt key name c : CC ca crt key name = Some c <->
  exists p x, authorities pem ca p /\ presents load crt key x /\ c = Conf _ _ false None p x name 771.
Proof.
  unfold TLSClientConfig. split.
  - destruct (pair crt key) as [x|] eqn:X; [|discriminate]. destruct (pool ca) as [p|] eqn:P; [|discriminate].
    intros E. exists p, x. split; [apply pool_iff; exact P|]. split; [apply pair_iff; exact X|]. unfold VersionTLS12 in E. congruence.
  - intros (p & x & A & B & ->). apply pool_iff in A. apply pair_iff in B. rewrite A, B. reflexivity.
Qed.
Lemma dclient_iff ca crt key c : DCC ca crt key = Some c <->
  exists p x, authorities pem ca p /\ presents load crt key x /\ c = Conf _ _ false None p x "" 0.
Proof.
  unfold DTLSClientConfig. split.
  - destruct (pair crt key) as [x|] eqn:X; [|discriminate]. destruct (pool ca) as [p|] eqn:P; [|discriminate].
    intros E. exists p, x. split; [apply pool_iff; exact P|]. split; [apply pair_iff; exact X|]. congruence.
  - intros (p & x & A & B & ->). apply pool_iff in A. apply pair_iff in B. rewrite A, B. reflexivity.
Qed.

Variable verify : Cert -> option (list CA) -> bool.
Variable valid_for : Cert -> string -> bool.
Notation LC := (listener_conf CA Cert pem load).
Notation SA := (server_accepts CA Cert verify).
Lemma listener_iff p l c : LC p l = Some (Some c) ->
  exists q x v, authorities pem (l_ca l) q /\ presents load (l_crt l) (l_key l) x /\ (l_mutual l = true -> l_ca l <> "") /\ c = Conf _ _ (l_mutual l) q None x "" v /\
    (v = 771%N \/ (p = LDtls /\ v = 0%N)).
Proof.
  intros H.
  assert (K : SC (l_ca l) (l_crt l) (l_key l) (l_mutual l) = Some c \/ (p = LDtls /\ DSC (l_ca l) (l_crt l) (l_key l) (l_mutual l) = Some c)).
  { unfold listener_conf in H. destruct p; try (left; destruct (SC _ _ _ _); cbn in H; congruence).
    - right. split; [reflexivity|]. destruct (DSC _ _ _ _); cbn in H; congruence.
    - left. destruct (l_notls l); [destruct (l_quic l); discriminate|]. destruct (SC _ _ _ _); cbn in H; congruence. }
  destruct K as [K|(-> & K)].
  - apply server_iff in K. destruct K as (q & x & A & B & C & D). exists q, x, 771%N. split; [exact A|]. split; [exact B|]. split; [exact C|]. split; [exact D|]. left. reflexivity.
  - apply dserver_iff in K. destruct K as (q & x & A & B & C & D). exists q, x, 0%N. split; [exact A|]. split; [exact B|]. split; [exact C|]. split; [exact D|]. right. split; reflexivity.
Qed.
Lemma mutual p l c client : LC p l = Some (Some c) -> l_mutual l = true ->
  (SA c client = true <-> (exists own, presents load (l_crt l) (l_key l) (Some own)) /\
     exists x cas, client = Some x /\ pem (l_ca l) = Some cas /\ cas <> [] /\ verify x (Some cas) = true).
Proof.
  clear valid_for. intros H M. apply listener_iff in H. destruct H as (q & x & v & A & B & C & -> & _). rewrite M. unfold server_accepts. cbn [t_cert t_auth t_clientCAs].
  destruct A as [(E & _)|(_ & l' & P & NE & ->)]; [destruct (C M E)|]. destruct x as [own|].
  - split.
    + destruct client as [y|]; [|discriminate]. intros V. split; [eauto|]. exists y, l'. auto.
    + intros (_ & y & cas & -> & P' & _ & V). congruence.
  - split; [discriminate|]. intros ((own & [(_ & Z)|(N1 & N2 & y & L & Z)]) & _); [discriminate|].
    destruct B as [([E|E] & _)|(_ & _ & y' & _ & Z')]; congruence.
Qed.
Lemma open_ p l c client : LC p l = Some (Some c) -> l_mutual l = false ->
  (SA c client = true <-> exists own, presents load (l_crt l) (l_key l) (Some own)).
Proof.
  clear valid_for. intros H M. apply listener_iff in H. destruct H as (q & x & v & A & B & C & -> & _). rewrite M. unfold server_accepts. cbn [t_cert t_auth].
  destruct x as [own|]; [split; eauto|]. split; [discriminate|].
  intros (own & [(_ & Z)|(N1 & N2 & y & L & Z)]); [discriminate|]. destruct B as [([E|E] & _)|(_ & _ & y' & _ & Z')]; congruence.
Qed.
Lemma notls l : l_notls l = true -> l_quic l = false -> LC LDoh l = Some None.
Proof. intros A B. unfold listener_conf. rewrite A, B. reflexivity. Qed.
Lemma notls_mutual : exists l, l_mutual l = true /\ l_ca l <> "" /\ LC LDoh l = Some None.
Proof. exists (LOpt "ca.pem" "s.crt" "s.key" true true false). split; [reflexivity|]. split; [discriminate|]. apply notls; reflexivity. Qed.
Lemma tls_only p l : LC p l = Some None -> p = LDoh /\ l_notls l = true /\ l_quic l = false.
Proof.
  unfold listener_conf. destruct p; intros H; try (destruct (SC _ _ _ _); discriminate); try (destruct (DSC _ _ _ _); discriminate).
  destruct (l_notls l); [|destruct (SC _ _ _ _); discriminate]. destruct (l_quic l); [discriminate|auto].
Qed.

(** ** Clients *)
Variable parseIP : string -> bytes.
Variable showIP : bytes -> string.
Variable lookup : string -> list bytes.
Variable urlHost : string -> option string.
Notation CF := (client_conf CA Cert pem load parseIP showIP lookup urlHost).
Notation AC := (client_accepts CA Cert parseIP verify valid_for).

Lemma conf_base p r c : CF p r = Some c -> exists q x n v, authorities pem (r_ca r) q /\ presents load (r_crt r) (r_key r) x /\ c = Conf _ _ false None q x n v /\
  (v = 771%N \/ p = DTLS).
Proof.
  assert (W : forall c n q x n0 v, c = Conf _ _ false None q x n0 v -> with_name CA Cert c n = Conf _ _ false None q x n v) by (intros ? ? ? ? ? ? ->; reflexivity).
  unfold client_conf. destruct p.
  1, 2, 4, 5: destruct (CC (r_ca r) (r_crt r) (r_key r) (r_server r)) as [c0|] eqn:B; [|discriminate]; apply client_iff in B; destruct B as (q & x & A1 & A2 & E0).
  - destruct (dot_client CA Cert r c0) as [[e c1]|] eqn:D; [|discriminate].
    assert (E1 : exists n1, c1 = Conf _ _ false None q x n1 771).
    { unfold dot_client in D. destruct (String.eqb (r_bootstrap r) ""); [injection D as _ <-; eauto|]. destruct SplitHostPort as [[h po]|]; [|discriminate].
      injection D as _ <-. eexists. eapply W, E0. }
    destruct E1 as (n1 & E1). unfold dot_dial. destruct SplitHostPort as [[h po]|]; [|discriminate]. intros K. injection K as <-.
    destruct (String.eqb (t_name CA Cert c1) ""); eexists q, x, _, 771%N; repeat split; eauto.
  - unfold doq_client. destruct SplitHostPort as [[h po]|]; [|discriminate]. intros K. injection K as <-. eexists q, x, _, 771%N; repeat split; eauto.
  - unfold doh_client. destruct (urlHost _) as [h|]; [|discriminate]. intros K. injection K as <-.
    destruct (String.eqb (t_name CA Cert c0) ""); eexists q, x, _, 771%N; repeat split; eauto.
  - unfold dohquic_client. destruct (urlHost _) as [h|]; [|discriminate]. intros K. injection K as <-. eexists q, x, _, 771%N; repeat split; eauto.
  - destruct (DCC (r_ca r) (r_crt r) (r_key r)) as [c0|] eqn:B; [|discriminate]. apply dclient_iff in B. destruct B as (q & x & A1 & A2 & E0).
    unfold dtls_client. destruct SplitHostPort as [[h po]|]; [|discriminate]. destruct (String.eqb (r_bootstrap r) "").
    + destruct (lookup h); [discriminate|]. intros K. injection K as <-. eexists q, x, _, 0%N; repeat split; eauto.
    + destruct (parseIP _); [discriminate|]. intros K. injection K as <-. eexists q, x, _, 0%N; repeat split; eauto.
Qed.
Lemma auth_fun ca q q' : authorities pem ca q -> authorities pem ca q' -> q = q'.
Proof. intros A B. apply pool_iff in A, B. congruence. Qed.
(** What a client with the name n accepts *)
Lemma accepts_iff p r c cert n : CF p r = Some c -> p <> DTLS -> t_name CA Cert c = n -> n <> "" ->
  (AC p c cert = true <-> exists q, authorities pem (r_ca r) q /\ verify cert q = true /\ valid_for cert n = true).
Proof.
  intros H ND E NE. apply conf_base in H. destruct H as (q & x & n0 & v & A & B & -> & _). cbn in E. subst n0. unfold client_accepts. cbn [t_rootCAs t_name].
  assert (X : String.eqb n "" = false) by (apply String.eqb_neq; exact NE). rewrite X.
  transitivity (verify cert q && valid_for cert n = true).
  { destruct p; try reflexivity. congruence. }
  rewrite andb_true_iff. split; [intros (K1 & K2); eauto|]. intros (q' & A' & K). rewrite (auth_fun _ _ _ A A'). exact K.
Qed.
Lemma trust p r c cert : CF p r = Some c -> AC p c cert = true -> exists q, authorities pem (r_ca r) q /\ verify cert q = true.
Proof.
  intros H K. apply conf_base in H. destruct H as (q & x & n0 & v & A & B & -> & _). apply andb_true_iff in K. destruct K as (K & _). eauto.
Qed.
Lemma name_doh r c h : CF DoH r = Some c -> urlHost (r_address r) = Some h -> wanted (r_server r) h (t_name CA Cert c).
Proof.
  unfold client_conf, wanted. destruct (CC _ _ _ _) as [c0|] eqn:B; [|discriminate]. apply client_iff in B. destruct B as (q & x & _ & _ & ->).
  unfold doh_client. intros K U. rewrite U in K. injection K as <-. cbn [t_name]. destruct (String.eqb (r_server r) ""); reflexivity.
Qed.
Lemma name_dohq r c h : CF DoHQuic r = Some c -> urlHost (r_address r) = Some h -> t_name CA Cert c = h.
Proof.
  unfold client_conf. destruct (CC _ _ _ _) as [c0|] eqn:B; [|discriminate]. unfold dohquic_client. intros K U. rewrite U in K. injection K as <-. reflexivity.
Qed.
Lemma name_doq r c h po : CF DoQ r = Some c -> hostport (r_address r) h po -> t_name CA Cert c = h.
Proof.
  unfold client_conf. destruct (CC _ _ _ _) as [c0|] eqn:B; [|discriminate]. unfold doq_client. intros K U. apply split_iff in U. rewrite U in K. injection K as <-. reflexivity.
Qed.
Lemma name_dot r c h po : CF DoT r = Some c -> hostport (r_address r) h po -> h <> "" ->
  (r_bootstrap r <> "" -> t_name CA Cert c = h) /\
  (r_bootstrap r = "" -> r_server r <> "" -> t_name CA Cert c = r_server r) /\
  (r_bootstrap r = "" -> r_server r = "" -> r_dialer r = true \/ parseIP h <> [] \/ lookup h = [] -> t_name CA Cert c = h) /\
  (r_bootstrap r = "" -> r_server r = "" -> r_dialer r = false -> parseIP h = [] ->
     forall ip l, lookup h = ip :: l -> without "[" (showIP ip) -> without "]" (showIP ip) -> t_name CA Cert c = showIP ip).
Proof.
  unfold client_conf. destruct (CC _ _ _ _) as [c0|] eqn:B; [|discriminate]. apply client_iff in B. destruct B as (q & x & _ & _ & E0).
  intros K U NE. pose proof U as U'. apply split_iff in U. unfold dot_client in K. rewrite U in K.
  destruct (String.eqb_spec (r_bootstrap r) "") as [EB|NB].
  - unfold dot_dial in K. subst c0. cbn [t_name] in K.
    split; [congruence|]. split.
    { intros _ NS. destruct SplitHostPort as [[h' po']|]; [|discriminate]. apply String.eqb_neq in NS. rewrite NS in K. injection K as <-. reflexivity. }
    unfold resolveEndpointAddr in K. rewrite U in K. split; intros _ ES; rewrite ES in K; cbn [String.eqb] in K.
    + intros C. assert (X : (if r_dialer r then r_address r else match parseIP h with [] => match lookup h with [] => r_address r | ip :: _ => JoinHostPort (showIP ip) po end | _ :: _ => r_address r end) = r_address r).
      { destruct (r_dialer r); [reflexivity|]. destruct (parseIP h); [|reflexivity]. destruct C as [C|[C|C]]; [discriminate|congruence|]. rewrite C. reflexivity. }
      rewrite X, U in K. injection K as <-. reflexivity.
    + intros D P ip l L W1 W2. rewrite D, P, L in K. destruct U' as ((A1 & A2 & A3 & _ & _) & _). rewrite join_split_host in K by assumption. injection K as <-. reflexivity.
  - unfold dot_dial in K. split; [intros _|repeat split; congruence].
    destruct SplitHostPort as [[h' po']|]; [|discriminate]. cbn [with_name t_name] in K. apply String.eqb_neq in NE. rewrite NE in K. injection K as <-. reflexivity.
Qed.
Lemma name_dtls r c h po : CF DTLS r = Some c -> hostport (r_address r) h po -> t_name CA Cert c = if String.eqb (r_bootstrap r) "" then "" else h.
Proof.
  unfold client_conf. destruct (DCC _ _ _) as [c0|] eqn:B; [|discriminate]. apply dclient_iff in B. destruct B as (q & x & _ & _ & ->).
  intros K U. apply split_iff in U. unfold dtls_client in K. rewrite U in K. destruct (String.eqb (r_bootstrap r) "").
  - destruct (lookup h); [discriminate|]. injection K as <-. reflexivity.
  - destruct (parseIP _); [discriminate|]. injection K as <-. reflexivity.
Qed.
Lemma accepts_dtls r c cert h po : CF DTLS r = Some c -> hostport (r_address r) h po ->
  (AC DTLS c cert = true <-> exists q, authorities pem (r_ca r) q /\ verify cert q = true /\ (r_bootstrap r <> "" -> h <> "" -> parseIP h = [] -> valid_for cert h = true)).
Proof.
  intros H U. pose proof (name_dtls _ _ _ _ H U) as N. apply conf_base in H. destruct H as (q & x & n0 & v & A & B & -> & _). cbn [t_name] in N. unfold client_accepts. cbn [t_rootCAs t_name].
  rewrite andb_true_iff. subst n0. split.
  - intros (V & K). exists q. split; [exact A|]. split; [exact V|]. intros NB NH P. apply String.eqb_neq in NB, NH. rewrite NB in K. rewrite NH, P in K. exact K.
  - intros (q' & A' & V & K). rewrite (auth_fun _ _ _ A A'). split; [exact V|]. destruct (String.eqb_spec (r_bootstrap r) ""); [reflexivity|].
    destruct (String.eqb_spec h ""); [reflexivity|]. destruct (parseIP h) eqn:P; [|reflexivity]. cbn. auto.
Qed.
Lemma versions p r c : CF p r = Some c -> p <> DTLS -> t_min CA Cert c = 771%N.
Proof. intros H N. apply conf_base in H. destruct H as (q & x & n & v & _ & _ & -> & [->|E]); [reflexivity|congruence]. Qed.
End P.
