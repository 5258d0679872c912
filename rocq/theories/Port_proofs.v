From Verif Require Import Base Base_proofs Bytes Net Cidr_spec Net_spec Router_model Router_proofs Addr_model Addr_spec Addr_proofs XDial_model XDial_spec XDial_proofs LSock_model LSock_spec LSock_proofs Port_spec.
Local Open Scope string_scope.

Lemma whole_iff s n : atoi s = Some n <-> whole s n.
Proof. exact (atoi_signed s n). Qed.
Lemma whole_none s : atoi s = None <-> forall n, ~ whole s n.
Proof.
  split.
  - intros E n W. apply whole_iff in W. congruence.
  - intros H. destruct (atoi s) as [n|] eqn:E; [|reflexivity]. exfalso. apply (H n), whole_iff, E.
Qed.
Lemma begins_iff pre s : prefix pre s = true <-> begins s pre.
Proof.
  unfold begins. revert s. induction pre as [|c pre IH]; intros s; [cbn; split; [exists s; reflexivity|destruct s; reflexivity]|]. destruct s as [|d s]; cbn [prefix append].
  - split; [discriminate|intros (r & [=])].
  - destruct (Ascii.ascii_dec c d) as [->|N].
    + rewrite IH. split; intros (r & E); exists r; [rewrite E; reflexivity|injection E as E; exact E].
    + split; [discriminate|]. intros (r & [= E _]). congruence.
Qed.
Lemma kind_iff network t : socketType network = Some t <-> kind network t.
Proof.
  unfold socketType, kind. rewrite <- !begins_iff. destruct (prefix "tcp" network) eqn:T.
  - split; [intros [= <-]; auto|]. intros [[_ ->]|[U _]]; [reflexivity|]. exfalso. apply begins_iff in T, U. destruct T as (r & ->), U as (r' & [=]).
  - destruct (prefix "udp" network); split; try discriminate.
    + intros [= <-]. auto.
    + intros [[[=] _]|[_ ->]]. reflexivity.
    + intros [[[=] _]|[[=] _]].
Qed.
Lemma join_ok h p : without ":" p -> without "[" p -> without "]" p -> without "[" h -> without "]" h -> hostport (JoinHostPort h p) h p.
Proof. intros. apply split_iff, join_split_host; assumption. Qed.
Lemma dial_kind ok connect polls parseIP lookup network address o local timeout tr :
  dialXSocket ok connect polls parseIP lookup network address o local timeout = (tr, Some true) <->
  exists sa t ctr, sockaddrFor parseIP lookup network address = Some sa /\ kind network t /\
    connected ok connect polls sa ctr (pollTimeout timeout) /\
    forallb ok ([GetFd (sa_domain sa) t] ++ options o ++ local_bind local ++ [File]) = true /\
    tr = ([GetFd (sa_domain sa) t] ++ options o ++ local_bind local ++ ctr ++ [File; Close])%list.
Proof. rewrite dial_iff. split; intros (sa & t & ctr & A & K & R); exists sa, t, ctr; (split; [exact A|]; split; [apply kind_iff, K|exact R]). Qed.
Lemma address_whole parseIP lookup network address sa : ips_ok parseIP lookup -> sockaddrFor parseIP lookup network address = Some sa <->
  exists host ports v ip, hostport address host ports /\ whole ports (sa_port sa) /\ version network v /\
    host_addr parseIP lookup v host ip /\ sock_of ip sa /\ (ends network "4" -> is_v4 ip) /\ (ends network "6" -> ~ is_v4 ip).
Proof. intros OKS. rewrite (sockaddr_iff parseIP lookup network address sa OKS). split; intros (h & p & v & ip & A & W & R); exists h, p, v, ip; (split; [exact A|]; split; [apply whole_iff, W|exact R]). Qed.
Lemma dtls_whole resolveUDP parseIP l h po : valid l -> hostport (c_addr l) h po ->
  ((forall n, ~ whole po n) -> listener_socket resolveUDP parseIP PDtls l = None) /\
  (forall n, whole po n -> (c_xsocket l <> "" -> listener_socket resolveUDP parseIP PDtls l = None) /\
      (c_xsocket l = "" -> exists s, listener_socket resolveUDP parseIP PDtls l = Some s /\ at_place l (k_place s) /\ k_type s = Dgram /\
         one_version (k_net s) 0 /\ k_addr s = Udp (parseIP h) n /\ options (k_opts s) = [])).
Proof.
  intros V H. pose proof (dtls_ok resolveUDP parseIP l h po V H) as X. split.
  - intros N. apply whole_none in N. rewrite N in X. exact X.
  - intros n W. apply whole_iff in W. rewrite W in X. exact X.
Qed.
