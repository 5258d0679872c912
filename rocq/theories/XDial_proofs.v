From Verif Require Import Base Bytes Net Net_proofs Cidr_spec Net_spec Router_model Addr_model Addr_spec Addr_proofs XDial_model XDial_spec.

Section P.
Variable ok : call -> bool.
Variable connect : sockaddr -> connres.
Variable polls : list pollres.
Variable parseIP : string -> bytes.
Variable lookup : N -> string -> list bytes.


Lemma apply_ok o : exists tr, fst (applyToFd ok o) = tr /\ Forall quiet tr /\ snd (applyToFd ok o) = (forallb ok) (options o) /\
  (snd (applyToFd ok o) = true -> tr = options o).
Proof.
  eexists. split; [reflexivity|]. unfold applyToFd, options.
  destruct (N.ltb_spec 0 (o_mark o)) as [L|L]; destruct (N.eqb_spec (o_mark o) 0) as [E|E]; try lia; cbn [andb].
  - destruct (ok (Mark (o_mark o))) eqn:M; cbn [negb].
    + destruct (String.eqb (o_bind o) ""); cbn; rewrite ?M; cbn; rewrite ?andb_true_r; repeat split; repeat constructor.
    + cbn. rewrite M. cbn. repeat split; repeat constructor. discriminate.
  - destruct (String.eqb (o_bind o) ""); cbn; rewrite ?andb_true_r; repeat split; repeat constructor.
Qed.
Definition setup_calls (d : domain) (v : bool) (o : sockopts) : list call := options o ++ [Reuse] ++ match d with INET => [] | INET6 => [V6only v] end.
Lemma setup_ok d network o : Forall quiet (fst (setupListenSocket ok d network o)) /\
  snd (setupListenSocket ok d network o) = (forallb ok) (setup_calls d (N.eqb (networkIPVersion network) 6) o) /\
  (snd (setupListenSocket ok d network o) = true -> fst (setupListenSocket ok d network o) = setup_calls d (N.eqb (networkIPVersion network) 6) o).
Proof.
  unfold setupListenSocket, setup_calls. destruct (apply_ok o) as (tr & A & Q & B & C). destruct (applyToFd ok o) as [tr' b]. cbn [fst snd] in *. subst tr' b.
  rewrite !forallb_app. destruct ((forallb ok) (options o)) eqn:O; cbn [negb andb fst snd].
  - rewrite (C eq_refl) in *. cbn [forallb]. destruct (ok Reuse) eqn:R; cbn [negb andb fst snd].
    + destruct d; cbn [fst snd].
      * repeat split. apply Forall_app. split; [exact Q|repeat constructor].
      * cbn [app]. cbn [forallb]. rewrite andb_true_r. repeat split. apply Forall_app. split; [exact Q|repeat constructor].
    + repeat split; [apply Forall_app; split; [exact Q|repeat constructor]|discriminate].
  - repeat split; [exact Q|discriminate].
Qed.
Lemma quiet_app a b : Forall quiet a -> Forall quiet b -> Forall quiet (a ++ b).
Proof. intros A B. apply Forall_app. auto. Qed.
Notation sf := (sockaddrFor parseIP lookup).

Lemma listen_tidy network address o : let '(tr, b) := listenXSocket ok parseIP lookup network address o in tidy ok tr b.
Proof.
  unfold listenXSocket. destruct (sf network address) as [sa|]; [|constructor]. cbv zeta. destruct (ok (GetFd (sa_domain sa) Stream)) eqn:G; cbn [negb]; [|constructor; exact G].
  destruct (setup_ok (sa_domain sa) network o) as (Q & _). destruct (setupListenSocket ok (sa_domain sa) network o) as [tr b]. cbn [fst] in Q.
  destruct b; cbn [negb]; [|apply T_closed; assumption].
  destruct (ok (Bind sa)); cbn [negb].
  - destruct (ok Listen); cbn [negb].
    + replace (tr ++ [Bind sa; Listen; File; Close]) with ((tr ++ [Bind sa; Listen]) ++ [File; Close]) by (rewrite <- app_assoc; reflexivity).
      apply T_file; [exact G|]. apply quiet_app; [exact Q|repeat constructor].
    + replace (tr ++ [Bind sa; Listen; Close]) with ((tr ++ [Bind sa; Listen]) ++ [Close]) by (rewrite <- app_assoc; reflexivity).
      apply T_closed; [exact G|]. apply quiet_app; [exact Q|repeat constructor].
  - replace (tr ++ [Bind sa; Close]) with ((tr ++ [Bind sa]) ++ [Close]) by (rewrite <- app_assoc; reflexivity).
    apply T_closed; [exact G|]. apply quiet_app; [exact Q|repeat constructor].
Qed.
Lemma packet_tidy network address o : let '(tr, b) := listenPacketXSocket ok parseIP lookup network address o in tidy ok tr b.
Proof.
  unfold listenPacketXSocket. destruct (sf network address) as [sa|]; [|constructor]. cbv zeta. destruct (ok (GetFd (sa_domain sa) Dgram)) eqn:G; cbn [negb]; [|constructor; exact G].
  destruct (setup_ok (sa_domain sa) network o) as (Q & _). destruct (setupListenSocket ok (sa_domain sa) network o) as [tr b]. cbn [fst] in Q.
  destruct b; cbn [negb]; [|apply T_closed; assumption].
  destruct (ok (Bind sa)); cbn [negb].
  - replace (tr ++ [Bind sa; File; Close]) with ((tr ++ [Bind sa]) ++ [File; Close]) by (rewrite <- app_assoc; reflexivity).
    apply T_file; [exact G|]. apply quiet_app; [exact Q|repeat constructor].
  - replace (tr ++ [Bind sa; Close]) with ((tr ++ [Bind sa]) ++ [Close]) by (rewrite <- app_assoc; reflexivity).
    apply T_closed; [exact G|]. apply quiet_app; [exact Q|repeat constructor].
Qed.
Lemma poll_quiet ms l : Forall quiet (fst (poll_loop ms l)).
Proof.
  induction l as [|p l IH]; cbn; [repeat constructor|]. destruct p; cbn; try (repeat constructor). destruct (poll_loop ms l). cbn in *. constructor; [exact I|exact IH].
Qed.
Lemma connect_quiet sa timeout : Forall quiet (fst (connectFd ok connect polls sa timeout)).
Proof.
  unfold connectFd. destruct (ok Nonblock); cbn [negb]; [|repeat constructor]. destruct (connect sa); cbn [fst]; try (repeat constructor).
  pose proof (poll_quiet (pollTimeout timeout) polls) as Q. destruct (poll_loop (pollTimeout timeout) polls) as [tr r]. cbn [fst] in Q.
  destruct r as [[]|]; cbn [fst]; repeat constructor; try exact Q. apply quiet_app; [exact Q|repeat constructor].
Qed.
Lemma dial_tidy network address o local timeout b :
  snd (dialXSocket ok connect polls parseIP lookup network address o local timeout) = Some b ->
  tidy ok (fst (dialXSocket ok connect polls parseIP lookup network address o local timeout)) b.
Proof.
  unfold dialXSocket. destruct (sf network address) as [sa|]; [|intros E; injection E as <-; constructor].
  destruct (socketType network) as [t|]; [|intros E; injection E as <-; constructor]. cbv zeta.
  destruct (ok (GetFd (sa_domain sa) t)) eqn:G; cbn [negb]; [|intros E; injection E as <-; constructor; exact G].
  destruct (apply_ok o) as (tr & A & Q & _). destruct (applyToFd ok o) as [tr' b']. cbn [fst] in A. subst tr'.
  destruct b'; cbn [negb]; [|intros E; injection E as <-; apply T_closed; assumption].
  set (loc := match local with [] => None | _ => if IsUnspecified local then None else Some (sockaddrFromIP local 0) end). clearbody loc.
  assert (QB : Forall quiet match loc with None => [] | Some l => [Bind l] end) by (destruct loc; repeat constructor).
  destruct (match loc with None => false | Some l => negb (ok (Bind l)) end).
  - intros E. injection E as <-. cbn [fst]. rewrite app_assoc. apply T_closed; [exact G|]. apply quiet_app; assumption.
  - pose proof (connect_quiet sa timeout) as QC. destruct (connectFd ok connect polls sa timeout) as [ctr [[]|]]; cbn [fst snd] in *; intros E; try discriminate; injection E as <-.
    + rewrite !app_assoc, <- (app_assoc (tr ++ _)). rewrite app_assoc. apply T_file; [exact G|]. repeat apply quiet_app; assumption.
    + rewrite !app_assoc, <- (app_assoc (tr ++ _)). rewrite app_assoc. apply T_closed; [exact G|]. repeat apply quiet_app; assumption.
Qed.

Lemma listen_iff network address o tr : listenXSocket ok parseIP lookup network address o = (tr, true) <->
  exists sa, sf network address = Some sa /\ tr = listen_calls network o (N.eqb (networkIPVersion network) 6) sa Stream ++ [Close] /\
    (forallb ok) (listen_calls network o (N.eqb (networkIPVersion network) 6) sa Stream) = true.
Proof.
  unfold listenXSocket. destruct (sf network address) as [sa|]; [|split; [discriminate|intros (sa & E & _); discriminate]]. cbv zeta.
  destruct (setup_ok (sa_domain sa) network o) as (_ & B & C). destruct (setupListenSocket ok (sa_domain sa) network o) as [tr' b]. cbn [fst snd] in B, C. subst b.
  assert (X : forall v, (forallb ok) (listen_calls network o v sa Stream) = ok (GetFd (sa_domain sa) Stream) && (forallb ok) (setup_calls (sa_domain sa) v o) && ok (Bind sa) && ok Listen && ok File).
  { intros v. unfold listen_calls, setup_calls. rewrite !forallb_app. cbn [forallb]. rewrite !andb_true_r. rewrite !andb_assoc. reflexivity. }
  assert (Y : forall v, listen_calls network o v sa Stream ++ [Close] = GetFd (sa_domain sa) Stream :: setup_calls (sa_domain sa) v o ++ [Bind sa; Listen; File; Close]).
  { intros v. unfold listen_calls, setup_calls. cbn [app]. rewrite <- !app_assoc. cbn [app]. rewrite <- ?app_assoc. reflexivity. }
  split.
  - intros H. exists sa. split; [reflexivity|]. rewrite X, Y.
    destruct (ok (GetFd (sa_domain sa) Stream)); cbn [negb] in H; [|discriminate].
    destruct ((forallb ok) (setup_calls _ _ o)) eqn:S; cbn [negb] in H; [|discriminate].
    destruct (ok (Bind sa)); cbn [negb] in H; [|discriminate]. destruct (ok Listen); cbn [negb] in H; [|discriminate].
    injection H as <- H. rewrite H, (C eq_refl). split; reflexivity.
  - intros (sa' & E & -> & H). injection E as <-. rewrite X in H. rewrite Y. repeat (apply andb_true_iff in H; destruct H as (H & ?)).
    repeat match goal with K : _ = true |- _ => rewrite K in * end. cbn [negb]. rewrite (C eq_refl). reflexivity.
Qed.
Lemma packet_iff network address o tr : listenPacketXSocket ok parseIP lookup network address o = (tr, true) <->
  exists sa, sf network address = Some sa /\ tr = listen_calls network o (N.eqb (networkIPVersion network) 6) sa Dgram ++ [Close] /\
    (forallb ok) (listen_calls network o (N.eqb (networkIPVersion network) 6) sa Dgram) = true.
Proof.
  unfold listenPacketXSocket. destruct (sf network address) as [sa|]; [|split; [discriminate|intros (sa & E & _); discriminate]]. cbv zeta.
  destruct (setup_ok (sa_domain sa) network o) as (_ & B & C). destruct (setupListenSocket ok (sa_domain sa) network o) as [tr' b]. cbn [fst snd] in B, C. subst b.
  assert (X : forall v, (forallb ok) (listen_calls network o v sa Dgram) = ok (GetFd (sa_domain sa) Dgram) && (forallb ok) (setup_calls (sa_domain sa) v o) && ok (Bind sa) && ok File).
  { intros v. unfold listen_calls, setup_calls. rewrite !forallb_app. cbn [forallb]. rewrite !andb_true_r. rewrite !andb_assoc, ?andb_true_r. reflexivity. }
  assert (Y : forall v, listen_calls network o v sa Dgram ++ [Close] = GetFd (sa_domain sa) Dgram :: setup_calls (sa_domain sa) v o ++ [Bind sa; File; Close]).
  { intros v. unfold listen_calls, setup_calls. cbn [app]. rewrite <- !app_assoc. cbn [app]. rewrite <- ?app_assoc. reflexivity. }
  split.
  - intros H. exists sa. split; [reflexivity|]. rewrite X, Y.
    destruct (ok (GetFd (sa_domain sa) Dgram)); cbn [negb] in H; [|discriminate].
    destruct ((forallb ok) (setup_calls _ _ o)) eqn:S; cbn [negb] in H; [|discriminate].
    destruct (ok (Bind sa)); cbn [negb] in H; [|discriminate].
    injection H as <- H. rewrite H, (C eq_refl). split; reflexivity.
  - intros (sa' & E & -> & H). injection E as <-. rewrite X in H. rewrite Y. repeat (apply andb_true_iff in H; destruct H as (H & ?)).
    repeat match goal with K : _ = true |- _ => rewrite K in * end. cbn [negb]. rewrite (C eq_refl). reflexivity.
Qed.

(** ** Dialling *)
Lemma poll_ready ms l : snd (poll_loop ms l) = Some true <-> exists n l', l = repeat PEintr n ++ PReady :: l'.
Proof.
  induction l as [|p l IH]; cbn.
  - split; [discriminate|]. intros (n & l' & E). destruct n; discriminate.
  - destruct p; cbn.
    + destruct (poll_loop ms l) as [tr r] eqn:P. cbn [snd] in *. rewrite IH. split; intros (n & l' & E).
      * exists (S n), l'. rewrite E. reflexivity.
      * destruct n as [|n]; [discriminate|]. injection E as E. eauto.
    + split; [discriminate|]. intros (n & l' & E). destruct n; discriminate.
    + split; [discriminate|]. intros (n & l' & E). destruct n; discriminate.
    + split; [|reflexivity]. intros _. exists O, l. reflexivity.
Qed.
Lemma poll_count ms n l : fst (poll_loop ms (repeat PEintr n ++ l)) = repeat (Poll ms) n ++ fst (poll_loop ms l).
Proof. induction n as [|n IH]; cbn; [reflexivity|]. destruct (poll_loop ms (repeat PEintr n ++ l)) as [tr r]. cbn [fst] in *. rewrite IH. reflexivity. Qed.
Lemma connect_iff sa timeout ctr : connectFd ok connect polls sa timeout = (ctr, Some true) <-> connected ok connect polls sa ctr (pollTimeout timeout).
Proof.
  unfold connectFd, connected. destruct (ok Nonblock); cbn [negb]; [|split; [discriminate|intros (E & _); discriminate]].
  destruct (connect sa).
  - split; [intros E; injection E as <-; auto|]. intros (_ & [(_ & ->)|(E & _)]); [reflexivity|discriminate].
  - destruct (poll_loop (pollTimeout timeout) polls) as [tr r] eqn:P. split.
    + intros H. assert (R : r = Some true) by (destruct r as [[]|]; [reflexivity|discriminate|discriminate]). subst r. injection H as <- OK.
      split; [reflexivity|]. right. split; [reflexivity|]. split; [exact OK|].
      destruct (proj1 (poll_ready (pollTimeout timeout) polls)) as (n & l & E); [rewrite P; reflexivity|]. exists n, l. split; [exact E|].
      pose proof (poll_count (pollTimeout timeout) n (PReady :: l)) as C. rewrite <- E, P in C. cbn [fst poll_loop] in C. rewrite C.
      replace (repeat (Poll (pollTimeout timeout)) n ++ [Poll (pollTimeout timeout)]) with (repeat (Poll (pollTimeout timeout)) (S n)) by (cbn; symmetry; rewrite repeat_cons; reflexivity).
      reflexivity.
    + intros (_ & [(E & _)|(_ & OK & n & l & E & ->)]); [discriminate|].
      assert (R : r = Some true). { pose proof (proj2 (poll_ready (pollTimeout timeout) polls) (ex_intro _ n (ex_intro _ l E))) as X. rewrite P in X. exact X. }
      subst r. rewrite OK. pose proof (poll_count (pollTimeout timeout) n (PReady :: l)) as C. rewrite <- E, P in C. cbn [fst poll_loop] in C. rewrite C.
      replace (repeat (Poll (pollTimeout timeout)) n ++ [Poll (pollTimeout timeout)]) with (repeat (Poll (pollTimeout timeout)) (S n)) by (cbn; symmetry; rewrite repeat_cons; reflexivity).
      reflexivity.
  - split; [discriminate|]. intros (_ & [(E & _)|(E & _)]); discriminate.
Qed.
Definition local_bind (local : bytes) : list call := match local with [] => [] | _ => if IsUnspecified local then [] else [Bind (sockaddrFromIP local 0)] end.
Lemma dial_iff network address o local timeout tr : dialXSocket ok connect polls parseIP lookup network address o local timeout = (tr, Some true) <->
  exists sa t ctr, sf network address = Some sa /\ socketType network = Some t /\ connected ok connect polls sa ctr (pollTimeout timeout) /\
    (forallb ok) ([GetFd (sa_domain sa) t] ++ options o ++ local_bind local ++ [File]) = true /\
    tr = [GetFd (sa_domain sa) t] ++ options o ++ local_bind local ++ ctr ++ [File; Close].
Proof.
  unfold dialXSocket. destruct (sf network address) as [sa|]; [|split; [discriminate|intros (sa & ? & ? & E & _); discriminate]].
  destruct (socketType network) as [t|]; [|split; [discriminate|intros (? & t & ? & _ & E & _); discriminate]]. cbv zeta.
  destruct (apply_ok o) as (tr' & A & _ & B & C). destruct (applyToFd ok o) as [tr'' b]. cbn [fst snd] in A, B, C. subst tr'' b.
  set (loc := match local with [] => None | _ => if IsUnspecified local then None else Some (sockaddrFromIP local 0) end).
  assert (L : local_bind local = match loc with None => [] | Some l => [Bind l] end).
  { unfold local_bind, loc. destruct local as [|x l]; [reflexivity|]. destruct (IsUnspecified (x :: l)); reflexivity. }
  assert (LB : (forallb ok) (local_bind local) = negb match loc with None => false | Some l => negb (ok (Bind l)) end).
  { rewrite L. destruct loc as [l|]; [|reflexivity]. cbn. rewrite andb_true_r, negb_involutive. reflexivity. }
  rewrite L in *. clearbody loc. split.
  - intros H. destruct (ok (GetFd (sa_domain sa) t)) eqn:G; cbn [negb] in H; [|discriminate].
    destruct ((forallb ok) (options o)) eqn:O; cbn [negb] in H; [|discriminate]. rewrite (C eq_refl) in *.
    destruct (match loc with None => false | Some l => negb (ok (Bind l)) end) eqn:BD; [discriminate|].
    destruct (connectFd ok connect polls sa timeout) as [ctr r] eqn:CO. destruct r as [[]|]; try discriminate. injection H as <- F.
    exists sa, t, ctr. split; [reflexivity|]. split; [reflexivity|]. split; [apply connect_iff; exact CO|]. split; [|reflexivity].
    rewrite !forallb_app, O, LB. cbn. rewrite G, F. reflexivity.
  - intros (sa' & t' & ctr & E1 & E2 & CO & K & ->). injection E1 as <-. injection E2 as <-. rewrite !forallb_app in K. cbn [forallb] in K. rewrite !andb_true_r in K.
    apply andb_true_iff in K. destruct K as (G & K). apply andb_true_iff in K. destruct K as (O & K). apply andb_true_iff in K. destruct K as (K & F).
    rewrite LB in K. apply negb_true_iff in K. rewrite G, O. cbn [negb]. rewrite K. apply connect_iff in CO. rewrite CO, F, (C O). reflexivity.
Qed.

End P.
(** ** Addresses *)
Section Q.
Variable parseIP : string -> bytes.
Variable lookup : N -> string -> list bytes.
Notation sf := (sockaddrFor parseIP lookup).

Lemma last_ends s c : last_char s = Some c <-> ends s (String c "").
Proof.
  unfold ends. induction s as [|x s IH].
  - split; [discriminate|]. intros (t & E). destruct t; discriminate.
  - destruct s as [|y s].
    + cbn. split.
      * intros E. injection E as ->. exists ""%string. reflexivity.
      * intros (t & E). destruct t as [|z t]; [injection E as ->; reflexivity|]. injection E as _ E. destruct t; discriminate.
    + change (last_char (String x (String y s))) with (last_char (String y s)). rewrite IH. split.
      * intros (t & E). exists (String x t). rewrite E. reflexivity.
      * intros (t & E). destruct t as [|z t]; [discriminate|]. injection E as _ E. exists t. exact E.
Qed.
Lemma version_ok network : version network (networkIPVersion network).
Proof.
  unfold version, networkIPVersion. destruct (last_char network) as [c|] eqn:L.
  - destruct (Ascii.eqb_spec c "4") as [->|N4]; [left; split; [apply last_ends; exact L|reflexivity]|].
    destruct (Ascii.eqb_spec c "6") as [->|N6]; [right; left; split; [apply last_ends; exact L|reflexivity]|].
    right. right. split; [|split; [|reflexivity]]; intros E; apply last_ends in E; congruence.
  - right. right. split; [|split; [|reflexivity]]; intros E; apply last_ends in E; congruence.
Qed.
Lemma version_fun network v v' : version network v -> version network v' -> v = v'.
Proof.
  unfold version. intros A B. assert (X : ends network "4" -> ends network "6" -> False).
  { intros P Q. apply last_ends in P, Q. congruence. }
  destruct A as [(? & ->)|[(? & ->)|(? & ? & ->)]], B as [(? & ->)|[(? & ->)|(? & ? & ->)]]; try reflexivity; exfalso; auto.
Qed.
Lemma v6_iff network : N.eqb (networkIPVersion network) 6 = true <-> ends network "6".
Proof.
  rewrite N.eqb_eq. split.
  - intros E. destruct (version_ok network) as [(_ & K)|[(K & _)|(_ & _ & K)]]; [congruence|exact K|congruence].
  - intros E. apply (version_fun network); [apply version_ok|]. right. left. auto.
Qed.
Lemma host_iff v h ip : host_ip parseIP lookup v h = Some ip <-> host_addr parseIP lookup v h ip.
Proof.
  unfold host_ip, host_addr. destruct (String.eqb_spec h "") as [->|N].
  - split.
    + intros E. left. split; [reflexivity|]. injection E as <-. reflexivity.
    + intros [(_ & ->)|[(N & _)|(N & _)]]; [reflexivity|congruence|congruence].
  - destruct (parseIP h) as [|x l] eqn:P.
    + destruct (lookup v h) as [|i l] eqn:L.
      * split; [discriminate|]. intros [(E & _)|[(_ & E & _)|(_ & _ & l & E)]]; congruence.
      * split.
        -- intros E. injection E as <-. right. right. split; [exact N|]. split; [reflexivity|]. exists l. reflexivity.
        -- intros [(E & _)|[(_ & E & _)|(_ & _ & l' & E)]]; congruence.
    + split.
      * intros E. injection E as <-. right. left. split; [exact N|]. split; [discriminate|reflexivity].
      * intros [(E & _)|[(_ & _ & ->)|(_ & E & _)]]; [congruence|reflexivity|discriminate].
Qed.
Lemma app_tail {A} n : forall (l1 l2 a b : list A), length a = n -> length b = n -> l1 ++ a = l2 ++ b -> a = b.
Proof.
  intros l1 l2 a b La Lb E. assert (L : length l1 = length l2). { apply (f_equal (@length A)) in E. rewrite !app_length in E. lia. }
  revert l2 L E. induction l1 as [|x l1 IH]; destruct l2 as [|y l2]; cbn; intros L E; try discriminate; [exact E|]. injection E as _ E. apply (IH l2); [lia|exact E].
Qed.
Lemma sock_iff ip port sa : ip_ok ip -> sockaddrFromIP ip port = sa <-> sock_of ip sa /\ sa_port sa = port.
Proof.
  intros O. unfold sockaddrFromIP, sock_of. destruct (v4_or ip O) as [(L & T)|[(M & L & T)|(N & L & T)]]; rewrite T.
  - split.
    + intros <-. split; [|reflexivity]. left. split; [left; exact L|]. split; [reflexivity|]. split; [exact L|]. exists []. reflexivity.
    + intros ([(_ & D & K & l & E)|(V & _)] & P); [|destruct V; left; exact L]. destruct sa as [d a p]. cbn in *. subst d p. f_equal.
      apply (app_tail 4 [] l); [exact L|exact K|exact E].
  - assert (K4 : length (skipn 12 ip) = 4%nat) by (rewrite skipn_length; lia). split.
    + intros <-. split; [|reflexivity]. left. split; [right; exact M|]. split; [reflexivity|]. split; [exact K4|]. exists (firstn 12 ip). symmetry. apply firstn_skipn.
    + intros ([(_ & D & K & l & E)|(V & _)] & P); [|destruct V; right; exact M]. destruct sa as [d a p]. cbn [sa_domain sa_addr sa_port] in *. subst d p.
      assert (X : skipn 12 ip = a); [|rewrite X; reflexivity].
      apply (app_tail 4 (firstn 12 ip) l); [exact K4|exact K|rewrite firstn_skipn; exact E].
  - split.
    + intros <-. split; [|reflexivity]. right. auto.
    + intros ([(V & _)|(_ & D & E)] & P); [contradiction|]. destruct sa as [d a p]. cbn in *. congruence.
Qed.
Lemma to4_none ip : ip_ok ip -> to4 ip = None <-> ~ is_v4 ip.
Proof.
  intros O. destruct (v4_or ip O) as [(L & T)|[(M & L & T)|(N & L & T)]]; rewrite T.
  - split; [discriminate|]. intros V. destruct V. left. exact L.
  - split; [discriminate|]. intros V. destruct V. right. exact M.
  - split; auto.
Qed.
Definition ips_ok : Prop := (forall h, parseIP h <> [] -> ip_ok (parseIP h)) /\ (forall v h, Forall ip_ok (lookup v h)).
Lemma addr_ok v h ip : ips_ok -> host_addr parseIP lookup v h ip -> ip_ok ip.
Proof.
  intros (A & B) [(_ & ->)|[(_ & N & ->)|(_ & _ & l & E)]].
  - destruct (N.eqb v 4); (split; [repeat constructor|right; reflexivity]).
  - apply A, N.
  - pose proof (B v h) as F. rewrite E in F. exact (Forall_inv F).
Qed.
Lemma sockaddr_iff network address sa : ips_ok -> sf network address = Some sa <->
  exists host ports v ip, hostport address host ports /\ atoi ports = Some (sa_port sa) /\ version network v /\ host_addr parseIP lookup v host ip /\
    sock_of ip sa /\ (ends network "4" -> is_v4 ip) /\ (ends network "6" -> ~ is_v4 ip).
Proof.
  intros OKS. unfold sockaddrFor. split.
  - destruct (SplitHostPort address) as [[host ports]|] eqn:S; [|discriminate]. destruct (atoi ports) as [port|] eqn:A; [|discriminate]. cbv zeta.
    destruct (host_ip parseIP lookup (networkIPVersion network) host) as [ip|] eqn:H; [|discriminate]. apply host_iff in H. pose proof (addr_ok _ _ _ OKS H) as O.
    intros E. exists host, ports, (networkIPVersion network), ip. apply split_iff in S. split; [exact S|].
    assert (K : sockaddrFromIP ip port = sa /\ (ends network "4" -> is_v4 ip) /\ (ends network "6" -> ~ is_v4 ip)).
    { pose proof (version_ok network) as V. pose proof (version_fun network (networkIPVersion network)) as U.
      destruct (N.eqb (networkIPVersion network) 4 && match to4 ip with None => true | _ => false end) eqn:B4; [discriminate|].
      destruct (N.eqb (networkIPVersion network) 6 && match to4 ip with None => false | _ => true end) eqn:B6; [discriminate|].
      split; [congruence|]. split; intros N.
      - rewrite (U 4 V (or_introl (conj N eq_refl))) in B4. cbn in B4. destruct (is_v4_dec ip O) as [Y|Y]; [exact Y|].
        apply (to4_none ip O) in Y. rewrite Y in B4. discriminate.
      - rewrite (U 6 V (or_intror (or_introl (conj N eq_refl)))) in B6. cbn in B6. apply (to4_none ip O). destruct (to4 ip); [discriminate|reflexivity]. }
    destruct K as (K & K4 & K6). apply (sock_iff ip port sa O) in K. destruct K as (K & P). rewrite P. split; [exact A|].
    split; [apply version_ok|]. auto.
  - intros (host & ports & v & ip & S & A & V & H & K & K4 & K6). apply split_iff in S. rewrite S, A. cbv zeta.
    pose proof (version_fun _ _ _ V (version_ok network)) as ->. pose proof (addr_ok _ _ _ OKS H) as O. apply host_iff in H. rewrite H.
    assert (B4 : N.eqb (networkIPVersion network) 4 && match to4 ip with None => true | _ => false end = false).
    { destruct (N.eqb_spec (networkIPVersion network) 4) as [E|]; [|reflexivity]. cbn. destruct (to4 ip) eqn:T; [reflexivity|]. apply (to4_none ip O) in T. destruct T. apply K4.
      destruct V as [(Y & _)|[(_ & Y)|(_ & _ & Y)]]; [exact Y|congruence|congruence]. }
    assert (B6 : N.eqb (networkIPVersion network) 6 && match to4 ip with None => false | _ => true end = false).
    { destruct (N.eqb_spec (networkIPVersion network) 6) as [E|]; [|reflexivity]. cbn. destruct (to4 ip) eqn:T; [|reflexivity]. exfalso.
      assert (Y : to4 ip = None); [|congruence]. apply (to4_none ip O), K6. apply v6_iff, N.eqb_eq, E. }
    rewrite B4, B6. f_equal. apply (sock_iff ip _ sa O). auto.
Qed.
(** ** The time limit *)
End Q.
Lemma timeout_ok timeout : match pollTimeout timeout with
  | None => (timeout <= 0)%Z
  | Some ms => (0 < timeout)%Z /\ (0 < ms)%N /\ (Z.of_N ms * 1000000 <= Z.max timeout 1000000)%Z /\ (timeout - 1000000 < Z.of_N ms * 1000000)%Z end.
Proof.
  unfold pollTimeout. destruct (Z.ltb_spec 0 timeout) as [L|L]; [|lia]. cbv zeta.
  pose proof (Z.div_mod timeout 1000000 ltac:(lia)) as D. pose proof (Z.mod_pos_bound timeout 1000000 ltac:(lia)) as B.
  pose proof (Z.div_pos timeout 1000000 ltac:(lia) ltac:(lia)) as P. set (q := (timeout / 1000000)%Z) in *. clearbody q. set (r := (timeout mod 1000000)%Z) in *. clearbody r.
  destruct (N.eqb_spec (Z.to_N q) 0) as [E|E].
  - assert (q = 0%Z) by lia. subst q. lia.
  - rewrite Z2N.id by lia. lia.
Qed.
Lemma zeros_iff l : forallb (N.eqb 0) l = true <-> l = repeat 0%N (length l).
Proof.
  induction l as [|x l IH]; [split; reflexivity|]. cbn [forallb length repeat]. rewrite andb_true_iff, IH, N.eqb_eq. split.
  - intros (<- & ->) . f_equal. rewrite repeat_length. reflexivity.
  - intros E. injection E as -> E. split; [reflexivity|exact E].
Qed.
Lemma unspec_iff ip : ip_ok ip -> IsUnspecified ip = true <-> unspecified ip.
Proof.
  intros O. unfold IsUnspecified. split.
  - unfold unspecified. destruct (to4 ip) as [x|] eqn:T.
    + intros Z. apply zeros_iff in Z. unfold to4 in T. destruct (Nat.eqb_spec (length ip) 4) as [L|L].
      * assert (x = ip) by congruence. subst x. left. rewrite Z, L. reflexivity.
      * destruct (Nat.eqb_spec (length ip) 16) as [L'|]; [|discriminate]. destruct list_eq_dec as [P|]; [|discriminate].
        assert (E : x = skipn 12 ip) by congruence. right. left. rewrite <- (firstn_skipn 12 ip), P, <- E, Z, E, skipn_length, L'. reflexivity.
    + rewrite andb_true_iff, Nat.eqb_eq. intros (L & Z). apply zeros_iff in Z. right. right. rewrite Z, L. reflexivity.
  - intros [->|[->| ->]]; reflexivity.
Qed.
Lemma local_ok local : (local = [] \/ ip_ok local) -> local_calls local (local_bind local).
Proof.
  intros O. unfold local_bind, local_calls. destruct local as [|x l]; [left; auto|]. destruct O as [E|O]; [discriminate|].
  pose proof (unspec_iff _ O) as U. destruct (IsUnspecified (x :: l)).
  - left. split; [right; apply U; reflexivity|reflexivity].
  - right. split; [discriminate|]. split; [intros K; apply U in K; discriminate|].
    exists (sockaddrFromIP (x :: l) 0). destruct (proj1 (sock_iff (x :: l) 0%Z _ O) eq_refl) as (A & B). auto.
Qed.
Lemma wait_refuted ok connect sa timeout (n : nat) : ok Nonblock = true -> connect sa = CPending ->
  exists polls, connectFd ok connect polls sa timeout = ([Nonblock; Connect sa] ++ repeat (Poll (pollTimeout timeout)) (S n), Some false).
Proof.
  intros NB C. exists (repeat PEintr n ++ [PTimeout]). unfold connectFd. rewrite NB, C. cbn [negb].
  pose proof (poll_count (pollTimeout timeout) n [PTimeout]) as P.
  assert (S' : snd (poll_loop (pollTimeout timeout) (repeat PEintr n ++ [PTimeout])) = Some false).
  { clear P. induction n as [|n IH]; cbn; [reflexivity|]. destruct poll_loop. exact IH. }
  destruct (poll_loop _ _) as [tr r]. cbn [fst snd] in *. subst tr r.
  replace (repeat (Poll (pollTimeout timeout)) n ++ fst (poll_loop (pollTimeout timeout) [PTimeout])) with (repeat (Poll (pollTimeout timeout)) (S n)); [reflexivity|].
  cbn. rewrite repeat_cons. reflexivity.
Qed.
