(** Lemmas about the Redis backend. *)
From Coq Require Import DecimalString DecimalNat DecimalN DecimalFacts.
From Verif Require Import Base Base_proofs Bytes Bytes_proofs Dns Net Blob_model Cache_model Cache_spec Cache_proofs Redis_model Redis_spec.
From Coq Require Import ZifyBool ZifyNat ZifyN.
Open Scope N_scope.

Lemma itoa_inj a b : itoa a = itoa b -> a = b.
Proof.
  unfold itoa. intros H. assert (G : forall n, N.to_uint n <> Decimal.Nil).
  { intros n E. pose proof (DecimalN.Unsigned.of_to n) as O. rewrite E in O. cbn in O. subst n. discriminate E. }
  assert (NilZero.uint_of_string (NilZero.string_of_uint (N.to_uint a)) = NilZero.uint_of_string (NilZero.string_of_uint (N.to_uint b))) as E by (rewrite H; reflexivity).
  rewrite !NilZero.usu in E by apply G. injection E as E. apply (f_equal N.of_uint) in E. rewrite !DecimalN.Unsigned.of_to in E. exact E.
Qed.

(** ** Cutting strings at a character *)
Fixpoint none_of (P : ascii -> bool) (s : string) : bool :=
  match s with EmptyString => true | String c s' => negb (P c) && none_of P s' end.
Lemma cut_first P s1 c1 r1 s2 c2 r2 : none_of P s1 = true -> none_of P s2 = true -> P c1 = true -> P c2 = true ->
  (s1 ++ String c1 r1)%string = (s2 ++ String c2 r2)%string -> s1 = s2 /\ String c1 r1 = String c2 r2.
Proof.
  revert s2. induction s1 as [|x s1 IH]; intros [|y s2] N1 N2 P1 P2 E; cbn [append none_of] in *.
  - split; [reflexivity|exact E].
  - injection E as -> _. rewrite P1 in N2. discriminate N2.
  - injection E as <- _. rewrite P2 in N1. discriminate N1.
  - injection E as <- E. apply andb_prop in N1. apply andb_prop in N2. destruct (IH s2 (proj2 N1) (proj2 N2) P1 P2 E) as [-> E']. split; [reflexivity|exact E'].
Qed.
Lemma contains_none c s : contains c s = false -> none_of (fun x => Ascii.eqb x c) s = true.
Proof. induction s as [|x s IH]; cbn [contains none_of]; intros H; [reflexivity|]. apply orb_false_iff in H. destruct H as [-> H]. cbn [negb andb]. apply IH, H. Qed.
Lemma cut_char c s1 r1 s2 r2 : contains c s1 = false -> contains c s2 = false -> (s1 ++ String c r1)%string = (s2 ++ String c r2)%string -> s1 = s2 /\ r1 = r2.
Proof.
  intros C1 C2 E. destruct (cut_first (fun x => Ascii.eqb x c) s1 c r1 s2 c r2) as [-> E']; try (apply contains_none; assumption); try apply Ascii.eqb_refl; [exact E|].
  injection E' as ->. split; reflexivity.
Qed.
Lemma lower_ascii_upper c : is_upper (lower_ascii c) = false.
Proof.
  unfold is_upper, lower_ascii. pose proof (N_ascii_bounded c) as B. destruct (N.leb_spec 65 (N_of_ascii c)), (N.leb_spec (N_of_ascii c) 90); cbn [andb].
  - rewrite N_ascii_embedding by lia. lia.
  - lia.
  - lia.
  - lia.
Qed.
Lemma lower_none s : none_of is_upper (lower s) = true.
Proof. induction s as [|c s IH]; [reflexivity|]. cbn [lower none_of]. rewrite lower_ascii_upper, IH. reflexivity. Qed.
Lemma none_app P a b : none_of P (a ++ b)%string = none_of P a && none_of P b.
Proof. induction a as [|c a IH]; [reflexivity|]. cbn [append none_of]. rewrite IH. apply andb_assoc. Qed.
Lemma app_last_inj a b c : (a ++ String c "")%string = (b ++ String c "")%string -> a = b.
Proof.
  revert b. induction a as [|x a IH]; intros [|y b] E; cbn [append] in E; [reflexivity| | |].
  - injection E as _ E. destruct b; discriminate E.
  - injection E as _ E. destruct a; discriminate E.
  - injection E as -> E. f_equal. apply IH, E.
Qed.

Section Keys.
Variable ipString : bytes -> string.
Variable classString typeString : N -> string.
Variable keyPrefix : string.
Notation key := (keyFromQuery ipString classString typeString keyPrefix).
Notation wsubs := (write_subnets ipString).

Lemma wsubs_filter l : wsubs l = wsubs (filter is_subnet l).
Proof. induction l as [|o l IH]; [reflexivity|]. cbn [write_subnets fold_right filter]. fold (wsubs l). destruct o; cbn [is_subnet write_subnet append]; try exact IH. cbn [write_subnets fold_right]. fold (wsubs (filter is_subnet l)). rewrite <- IH. reflexivity. Qed.

Lemma subnets_in q o : In o (subnets q) -> exists r, is_edns0 q = Some r /\ In r (m_extra q) /\ In o (opt_options r) /\ is_subnet o = true.
Proof.
  unfold subnets. destruct (is_edns0 q) as [r|] eqn:E; [|intros []]. intros H. apply filter_In in H. exists r. split; [reflexivity|]. split; [apply is_edns0_in, E|exact H].
Qed.
Lemma subnet_ok q o : query_ok q -> In o (subnets q) -> exists f m s a, o = ECS f m s a /\ m < 256 /\ addr_ok a.
Proof.
  intros (_ & _ & F) H. destruct (subnets_in q o H) as (r & _ & I & O & S). rewrite Forall_forall in F. specialize (F r I). rewrite Forall_forall in F. specialize (F o O).
  destruct o; try discriminate S. exists family, mask, scope, address. split; [reflexivity|]. exact F.
Qed.

Lemma slash_app s : (s <> "" -> exists c t, s = String c t)%string.
Proof. destruct s as [|c t]; intros H; [contradiction|]. exists c, t. reflexivity. Qed.

Lemma one_subnet_inj q1 q2 : ip_text_ok ipString -> ip_no_slash ipString -> rquery_ok q1 -> rquery_ok q2 ->
  wsubs (subnets q1) = wsubs (subnets q2) -> map subnet_id (subnets q1) = map subnet_id (subnets q2).
Proof.
  intros [T1 T2] NS [O1 L1] [O2 L2] E. pose proof (subnet_ok q1) as S1. pose proof (subnet_ok q2) as S2.
  destruct (subnets q1) as [|o1 [|? ?]]; cbn [length] in L1; [| |lia]; (destruct (subnets q2) as [|o2 [|? ?]]; cbn [length] in L2; [| |lia]).
  - reflexivity.
  - exfalso. destruct (S2 o2 O2 (or_introl eq_refl)) as (f & m & s & a & -> & _ & A). cbn [write_subnets fold_right write_subnet] in E.
    destruct (slash_app _ (proj2 (T1 a A))) as (c & t & R). rewrite R in E. discriminate E.
  - exfalso. destruct (S1 o1 O1 (or_introl eq_refl)) as (f & m & s & a & -> & _ & A). cbn [write_subnets fold_right write_subnet] in E.
    destruct (slash_app _ (proj2 (T1 a A))) as (c & t & R). rewrite R in E. discriminate E.
  - destruct (S1 o1 O1 (or_introl eq_refl)) as (f1 & m1 & s1 & a1 & -> & _ & A1). destruct (S2 o2 O2 (or_introl eq_refl)) as (f2 & m2 & s2 & a2 & -> & _ & A2).
    cbn [write_subnets fold_right write_subnet] in E. rewrite !string_app_nil_r in E. cbn [append] in E. apply cut_char in E; [|apply NS, A1|apply NS, A2].
    destruct E as [Ea Em]. apply itoa_inj in Em. apply T2 in Ea; [|exact A1|exact A2]. cbn [map subnet_id]. congruence.
Qed.
Lemma subnet_text_eq l1 : forall l2, Forall (fun o => exists f m s a, o = ECS f m s a /\ addr_ok a) l1 -> Forall (fun o => exists f m s a, o = ECS f m s a /\ addr_ok a) l2 ->
  ip_text_ok ipString -> map subnet_id l1 = map subnet_id l2 -> wsubs l1 = wsubs l2.
Proof.
  induction l1 as [|o1 l1 IH]; intros [|o2 l2] F1 F2 T E; try discriminate E; [reflexivity|]. inversion F1 as [|? ? X1 Y1]; subst. inversion F2 as [|? ? X2 Y2]; subst.
  destruct X1 as (f1 & m1 & s1 & a1 & -> & A1). destruct X2 as (f2 & m2 & s2 & a2 & -> & A2). cbn [map subnet_id] in E. injection E as -> Ec E.
  cbn [write_subnets fold_right write_subnet]. fold (wsubs l1). fold (wsubs l2). rewrite (IH l2 Y1 Y2 T E). apply (proj2 T) in Ec; [|exact A1|exact A2]. rewrite Ec. reflexivity.
Qed.

Lemma key_some q : query_ok q -> exists k, key q = Some k.
Proof. intros [Q _]. unfold keyFromQuery. destruct (m_question q) as [|x l]; [contradiction|]. eexists. reflexivity. Qed.

Theorem redis_key_iff q1 q2 : class_text_ok classString -> type_text_ok typeString -> ip_text_ok ipString -> ip_no_slash ipString ->
  rquery_ok q1 -> rquery_ok q2 -> (key q1 = key q2 <-> same_query q1 q2) /\ key q1 <> None.
Proof.
  intros [CT CI] [TT TI] IT NS R1 R2. destruct R1 as [O1 L1] eqn:X1. destruct R2 as [O2 L2] eqn:X2. clear X1 X2.
  pose proof (subnet_ok q1) as S1. pose proof (subnet_ok q2) as S2. pose proof (one_subnet_inj q1 q2 IT NS R1 R2) as INJ.
  split; [|destruct (key_some q1 O1) as (k & ->); discriminate].
  unfold keyFromQuery, same_query. destruct O1 as (Q1 & F1 & G1). destruct O2 as (Q2 & F2 & G2).
  destruct (m_question q1) as [|x1 l1]; [contradiction|]. destruct (m_question q2) as [|x2 l2]; [contradiction|].
  inversion F1 as [|? ? (Ty1 & Cl1 & _) _]; subst. inversion F2 as [|? ? (Ty2 & Cl2 & _) _]; subst. clear F1 F2.
  split.
  - intros E. assert (E' := f_equal (fun o => match o with Some s => s | None => ""%string end) E). cbn beta iota in E'. clear E. apply string_app_inj_l in E'.
    destruct (CT _ Cl1) as [(c1 & t1 & D1 & U1) NC1]. destruct (CT _ Cl2) as [(c2 & t2 & D2 & U2) NC2].
    assert (forall n r, (lower n ++ String colon r = (lower n ++ String colon "") ++ r)%string) as Asc by (intros n r; rewrite string_app_assoc; reflexivity).
    rewrite (Asc (q_name x1)), (Asc (q_name x2)) in E'. rewrite D1 in E'. rewrite D2 in E'. cbn [append] in E'. apply (cut_first is_upper) in E'; [|rewrite none_app, lower_none; reflexivity|rewrite none_app, lower_none; reflexivity|exact U1|exact U2].
    destruct E' as [En E']. apply app_last_inj in En. 
    assert (forall c t r, (String c (t ++ r) = String c t ++ r)%string) as Asc2 by reflexivity.
    rewrite (Asc2 c1 t1), (Asc2 c2 t2) in E'. rewrite <- D1, <- D2 in E'. apply cut_char in E'; [|exact NC1|exact NC2]. destruct E' as [Ec E']. apply CI in Ec; [|exact Cl1|exact Cl2].
    apply cut_char in E'; [|apply TT, Ty1|apply TT, Ty2]. destruct E' as [Et E']. apply TI in Et; [|exact Ty1|exact Ty2].
    apply cut_char in E'; [|destruct (m_cd q1); reflexivity|destruct (m_cd q2); reflexivity]. destruct E' as [Ed E'].
    exists x1, l1, x2, l2. split; [reflexivity|]. split; [reflexivity|]. split; [exact En|]. split; [exact Ec|]. split; [exact Et|].
    split; [destruct (m_cd q1), (m_cd q2); try reflexivity; discriminate Ed|].
    unfold edns_do. unfold subnets in *. destruct (is_edns0 q1) as [o1|], (is_edns0 q2) as [o2|]; cbn [option_map].
    + apply cut_char in E'; [|destruct (opt_do o1); reflexivity|destruct (opt_do o2); reflexivity]. destruct E' as [Ed' Es].
      split; [f_equal; destruct (opt_do o1), (opt_do o2); try reflexivity; discriminate Ed'|]. apply INJ. rewrite <- !wsubs_filter. exact Es.
    + exfalso. destruct (opt_do o1); discriminate E'.
    + exfalso. destruct (opt_do o2); discriminate E'.
    + split; reflexivity.
  - intros (y1 & k1 & y2 & k2 & A1 & A2 & En & Ec & Et & Ed & Eo & Es). injection A1 as <- <-. injection A2 as <- <-. rewrite En, Ec, Et, Ed. do 6 f_equal.
    assert (W : wsubs (subnets q1) = wsubs (subnets q2)).
    { apply subnet_text_eq; [| |exact IT|exact Es]; apply Forall_forall; intros o Ho.
      - destruct (S1 o (proj1 R1) Ho) as (f & m & s & a & -> & _ & A). exists f, m, s, a. auto.
      - destruct (S2 o (proj1 R2) Ho) as (f & m & s & a & -> & _ & A). exists f, m, s, a. auto. }
    unfold edns_do, subnets in *. destruct (is_edns0 q1) as [o1|], (is_edns0 q2) as [o2|]; cbn [option_map] in Eo; try discriminate Eo; [|reflexivity].
    injection Eo as ->. rewrite wsubs_filter, W, <- wsubs_filter. reflexivity.
Qed.
End Keys.

(** ** Values *)
Section Values.
Variable pack : msg -> option bytes.
Variable unpack : bytes -> option msg.

Theorem redis_roundtrip m a w b : pack a = Some w -> unpack w = Some a -> i64_ok (unixSeconds (mt_timestamp m)) ->
  encodeCacheAnswer pack m a = Some b -> decodeCacheAnswer unpack b = Some (unixSeconds (mt_timestamp m), mt_prefetch m, a).
Proof.
  intros P U T E. unfold encodeCacheAnswer in E. rewrite P in E.
  assert (B : b = 1 :: (if mt_prefetch m then N.lor 0 1 else 0) :: be64 (u64_of_i64 (unixSeconds (mt_timestamp m))) ++ w) by congruence.
  clear E. subst b. unfold decodeCacheAnswer. 
  replace (Nat.ltb (length (1 :: (if mt_prefetch m then N.lor 0 1 else 0) :: be64 (u64_of_i64 (unixSeconds (mt_timestamp m))) ++ w)) 10) with false.
  2:{ symmetry. apply Nat.ltb_ge. cbn [length]. rewrite app_length, be64_length. lia. }
  change (at_ (1 :: ?y) 0) with 1. cbn [negb N.eqb Pos.eqb]. change (at_ (1 :: ?y :: ?r) 1) with y.
  change (skipn 2 (?x :: ?y :: ?r)) with r. rewrite de64_be64 by apply u64_of_i64_lt. rewrite i64_u64 by exact T.
  replace (skipn 10 (1 :: (if mt_prefetch m then N.lor 0 1 else 0) :: be64 (u64_of_i64 (unixSeconds (mt_timestamp m))) ++ w)) with w by reflexivity.
  rewrite U. destruct (mt_prefetch m); reflexivity.
Qed.
Lemma in_second_is t s : in_second t s -> unixSeconds t = s.
Proof. destruct t as [n|]; cbn [in_second unixSeconds]; [|auto]. unfold second. intros H. symmetry. apply (Z.div_unique n 1000000000 s (n - s * 1000000000)); lia. Qed.
Theorem redis_roundtrip_second m a w b s : pack a = Some w -> unpack w = Some a -> in_second (mt_timestamp m) s -> i64_ok s ->
  encodeCacheAnswer pack m a = Some b -> decodeCacheAnswer unpack b = Some (s, mt_prefetch m, a).
Proof. intros P U T. rewrite <- (in_second_is _ _ T). exact (redis_roundtrip m a w b P U). Qed.
Theorem redis_rejects b : (length b < 10)%nat \/ hd_error b <> Some 1 \/ unpack (skipn 10 b) = None -> decodeCacheAnswer unpack b = None.
Proof.
  intros H. unfold decodeCacheAnswer. destruct (Nat.ltb_spec (length b) 10) as [L|L]; [reflexivity|]. destruct H as [H|[H|H]]; [lia| |].
  - destruct b as [|x b]; [cbn [length] in L; lia|]. change (at_ (x :: b) 0) with x. destruct (N.eqb_spec x 1) as [->|E]; [exfalso; apply H; reflexivity|reflexivity].
  - destruct (negb (at_ b 0 =? 1)); [reflexivity|]. rewrite H. reflexivity.
Qed.
Theorem redis_accepts b ts pf a : decodeCacheAnswer unpack b = Some (ts, pf, a) ->
  exists f t w, b = 1 :: f :: t ++ w /\ length t = 8%nat /\ unpack w = Some a /\ pf = N.odd f.
Proof.
  clear pack. unfold decodeCacheAnswer. destruct (Nat.ltb_spec (length b) 10) as [L|L]; [discriminate|].
  destruct b as [|x [|f b]]; cbn [length] in L; try lia. change (at_ (x :: f :: b) 0) with x. change (at_ (x :: f :: b) 1) with f.
  destruct (N.eqb_spec x 1) as [->|E]; [|discriminate]. cbn [negb]. change (skipn 10 (1 :: f :: b)) with (skipn 8 b).
  destruct (unpack (skipn 8 b)) as [a'|] eqn:U; [|discriminate]. intros E. assert (Ea : a' = a) by congruence. assert (Ep : negb (N.land f 1 =? 0) = pf) by congruence.
  clear E. subst a'. exists f, (firstn 8 b), (skipn 8 b). split; [rewrite firstn_skipn; reflexivity|]. split; [rewrite firstn_length; lia|]. split; [exact U|].
  rewrite <- Ep. change 1 with (N.ones 1). rewrite N.land_ones. change (2 ^ 1) with 2. rewrite <- N.bit0_mod. rewrite N.bit0_odd. destruct (N.odd f); reflexivity.
Qed.
End Values.

(** ** Histories *)
Section Histories.
Variable ipString : bytes -> string.
Variable classString typeString : N -> string.
Variable pack : msg -> option bytes.
Variable unpack : bytes -> option msg.
Variable keyPrefix : string.
Notation key := (keyFromQuery ipString classString typeString keyPrefix).
Notation encode := (encodeCacheAnswer pack).
Notation step := (rexec ipString classString typeString pack keyPrefix).
Notation run := (rexec_all ipString classString typeString pack keyPrefix).
Notation lookup := (redis_lookup ipString classString typeString unpack keyPrefix).

(** v is what some Store in l wrote under k, with lifetime ttl *)
Definition written (l : list revent) (k : string) (v : bytes) (ttl : Z) : Prop :=
  exists q m a t ex, In (RStore q m a t true) l /\ key q = Some k /\ encode m a = Some v /\ mt_expiry m = Some ex /\ ttl = (ex - t)%Z /\ (0 < ttl)%Z.
Definition rinv (l : list revent) (st : rstate) : Prop :=
  (forall k v ttl, In (k, v, ttl) (r_pending st) -> written l k v ttl) /\
  (forall k v d, In (k, (v, d)) (r_db st) -> exists i t ttl, In (RCommit i t true) l /\ d = (t + ttl)%Z /\ written l k v ttl).

Lemma written_more l l' k v ttl : written l k v ttl -> written (l ++ l') k v ttl.
Proof. intros (q & m & a & t & ex & I & R). exists q, m, a, t, ex. split; [apply in_or_app; left; exact I|exact R]. Qed.
Lemma remove_nth_in {A} i (l : list A) x : In x (remove_nth i l) -> In x l.
Proof. revert i. induction l as [|y l IH]; intros i H; [destruct i; destruct H|]. destruct i as [|i]; [right; exact H|]. cbn [remove_nth In] in H; destruct H as [->|H]; [left; reflexivity|right; apply (IH i), H]. Qed.
Lemma db_del_in k db e : In e (db_del k db) -> In e db.
Proof. unfold db_del. intros H. apply filter_In in H. apply H. Qed.

Lemma rstep_inv l st e st' : revent_ok e -> rinv l st -> step st e = Some st' -> rinv (l ++ [e]) st'.
Proof.
  intros OK [I1 I2] S.
  assert (J1 : forall k v ttl, In (k, v, ttl) (r_pending st) -> written (l ++ [e]) k v ttl) by (intros k v ttl H; apply written_more, I1, H).
  assert (J2 : forall k v d, In (k, (v, d)) (r_db st) -> exists i t ttl, In (RCommit i t true) (l ++ [e]) /\ d = (t + ttl)%Z /\ written (l ++ [e]) k v ttl).
  { intros k v d H. destruct (I2 k v d H) as (i & t & ttl & A & B & C). exists i, t, ttl. split; [apply in_or_app; left; exact A|]. split; [exact B|apply written_more, C]. }
  destruct e as [q m a now room|i now ok|k]; cbn [rexec] in S.
  - destruct OK as (_ & _ & ts & ex & _ & Ex & _). rewrite Ex in S. cbv zeta in S. destruct (Z.leb_spec (ex - now) 0) as [L|L]; [injection S as <-; split; assumption|].
    destruct (key q) as [k|] eqn:K; [|discriminate S]. destruct (encode m a) as [v|] eqn:V; [|injection S as <-; split; assumption].
    destruct room; injection S as <-; [|split; assumption]. split; cbn [r_pending r_db]; [|exact J2].
    intros k' v' ttl' H. apply in_app_or in H. destruct H as [H|[H|[]]]; [apply J1, H|]. injection H as <- <- <-.
    exists q, m, a, now, ex. split; [apply in_or_app; right; left; reflexivity|]. split; [exact K|]. split; [exact V|]. split; [exact Ex|]. split; [reflexivity|exact L].
  - destruct (nth_error (r_pending st) i) as [[[k v] ttl]|] eqn:N; [|injection S as <-; split; assumption]. injection S as <-. split; cbn [r_pending r_db].
    + intros k' v' ttl' H. apply J1. apply (remove_nth_in i), H.
    + intros k' v' d' H. destruct ok; [|apply J2, H]. destruct H as [H|H]; [|apply J2, (db_del_in k), H]. injection H as <- <- <-.
      exists i, now, ttl. split; [apply in_or_app; right; left; reflexivity|]. split; [reflexivity|]. apply J1. apply (nth_error_In _ i), N.
  - injection S as <-. split; cbn [r_pending r_db]; [exact J1|]. intros k' v' d' H. apply J2, (db_del_in k), H.
Qed.
Lemma rrun_inv l : forall l0 st st', Forall revent_ok l -> rinv l0 st -> run st l = Some st' -> rinv (l0 ++ l) st'.
Proof.
  induction l as [|e l IH]; intros l0 st st' F I R; cbn [rexec_all] in R.
  - injection R as <-. rewrite app_nil_r. exact I.
  - destruct (step st e) as [st1|] eqn:S; [|discriminate R]. inversion F as [|? ? OK F']; subst. pose proof (rstep_inv l0 st e st1 OK I S) as I'.
    specialize (IH (l0 ++ [e]) st1 st' F' I' R). rewrite <- app_assoc in IH. exact IH.
Qed.
Lemma db_find_in k db v : db_find k db = Some v -> In (k, v) db.
Proof.
  induction db as [|[k' v'] db IH]; cbn [db_find]; [discriminate|]. destruct (String.eqb_spec k' k) as [->|E]; intros H; [left; congruence|right; apply IH, H].
Qed.

Theorem redis_hit l st q now r pf : class_text_ok classString -> type_text_ok typeString -> ip_text_ok ipString -> ip_no_slash ipString ->
  Forall revent_ok l -> rfaithful pack unpack l -> rquery_ok q -> rtime_ok now ->
  run rempty l = Some st -> lookup q now st = Some (Some (r, pf)) ->
  exists q0 m a t ts ex i t', In (RStore q0 m a t true) l /\ In (RCommit i t' true) l /\ same_query q0 q /\
    mt_timestamp m = Some ts /\ mt_expiry m = Some ex /\ pf = mt_prefetch m /\ aged_msg q (whole ts) now a r /\ (now < t' + (ex - t))%Z.
Proof.
  intros CT TT IT NS F FA RQ NW R L. pose proof (rrun_inv l [] rempty st F) as I. cbn [app] in I.
  assert (I0 : rinv [] rempty) by (split; [intros k v ttl []|intros k v d []]). specialize (I I0 R). clear I0.
  unfold redis_lookup in L. destruct (key q) as [k|] eqn:K; [|discriminate L]. destruct (db_get k now (r_db st)) as [v|] eqn:G; [|discriminate L].
  destruct (decodeCacheAnswer unpack v) as [[[ts0 pf0] a0]|] eqn:D; [|discriminate L].
  destruct (ageCachedAnswer a0 q (cacheAge now (ts0 * second))) as [r0|] eqn:A; [|discriminate L]. assert (Er : r0 = r) by congruence. assert (Ep : pf0 = pf) by congruence. subst r0 pf0. clear L.
  unfold db_get in G. destruct (db_find k (r_db st)) as [[v' d]|] eqn:FD; [|discriminate G]. destruct (Z.ltb_spec now d) as [ND|ND]; [|discriminate G]. injection G as ->.
  apply db_find_in in FD. destruct I as [_ I2]. destruct (I2 k v d FD) as (i & t' & ttl & C & -> & q0 & m & a & t & ex & S & K0 & V & Ex & -> & _).
  pose proof (proj1 (Forall_forall _ _) F _ S) as OK. cbn [revent_ok] in OK. destruct OK as (Q0 & _ & ts & ex' & Ts & Ex' & TsO & _).
  unfold encodeCacheAnswer in V. destruct (pack a) as [w|] eqn:P; [|discriminate V]. pose proof (FA q0 m a t true w S P) as U.
  assert (T64 : i64_ok (unixSeconds (mt_timestamp m))).
  { rewrite Ts. unfold unixSeconds, i64_ok. unfold rtime_ok in TsO. unfold second in *. assert (0 <= ts / 1000000000 < 2 ^ 32)%Z; [|lia]. split; [apply Z.div_pos; lia|apply Z.div_lt_upper_bound; lia]. }
  pose proof (redis_roundtrip pack unpack m a w v P U T64) as RT. unfold encodeCacheAnswer in RT. rewrite P in RT. specialize (RT V). rewrite RT in D.
  assert (ts0 = unixSeconds (mt_timestamp m)) by congruence. assert (pf = mt_prefetch m) by congruence. assert (a0 = a) by congruence. clear D RT V. subst ts0 pf a0.
  exists q0, m, a, t, ts, ex, i, t'. split; [exact S|]. split; [exact C|]. split.
  { apply (redis_key_iff ipString classString typeString keyPrefix q0 q CT TT IT NS Q0 RQ). congruence. }
  split; [exact Ts|]. split; [exact Ex|]. split; [reflexivity|]. split; [|lia].
  rewrite Ts in A. cbn [unixSeconds] in A. fold (whole ts) in A. apply aged_sound; [|exact A].
  unfold whole. unfold rtime_ok in *. unfold second in *. pose proof (Z.div_pos ts 1000000000 ltac:(lia) ltac:(lia)). lia.
Qed.
Theorem redis_total l : Forall revent_ok l -> forall st, exists st', run st l = Some st'.
Proof.
  induction 1 as [|e l OK _ IH]; intros st; cbn [rexec_all]; [eexists; reflexivity|].
  assert (exists st1, step st e = Some st1) as (st1 & ->); [|apply IH].
  destruct e as [q m a now room|i now ok|k]; cbn [rexec].
  - destruct OK as ((QO & _) & _ & ts & ex & _ & Ex & _). rewrite Ex. cbv zeta. destruct (Z.leb (ex - now) 0); [eexists; reflexivity|].
    destruct (key_some ipString classString typeString keyPrefix q QO) as (k & ->). destruct (encode m a); eexists; reflexivity.
  - destruct (nth_error (r_pending st) i) as [[[k v] ttl]|]; eexists; reflexivity.
  - eexists. reflexivity.
Qed.

Lemma lookup_total st q now : query_ok q -> exists r, lookup q now st = Some r.
Proof.
  intros QO. unfold redis_lookup. destruct (key_some ipString classString typeString keyPrefix q QO) as (k & ->).
  destruct (db_get k now (r_db st)) as [v|]; [|eauto]. destruct (decodeCacheAnswer unpack v) as [[[ts pf] a]|]; [|eauto].
  destruct (ageCachedAnswer a q _); eauto.
Qed.

Lemma redis_serves st q0 m a t ts ex w t' q now r :
  class_text_ok classString -> type_text_ok typeString -> ip_text_ok ipString -> ip_no_slash ipString ->
  rquery_ok q0 -> rquery_ok q -> same_query q0 q -> mt_timestamp m = Some ts -> mt_expiry m = Some ex -> rtime_ok ts -> rtime_ok now ->
  pack a = Some w -> unpack w = Some a -> (t < ex)%Z -> (now < t' + (ex - t))%Z -> aged_msg q (whole ts) now a r ->
  exists st', run st [RStore q0 m a t true; RCommit (length (r_pending st)) t' true] = Some st' /\
    lookup q now st' = Some (Some (r, mt_prefetch m)).
Proof.
  intros CT TT IT NS Q0 RQ SQ Ts Ex TsO NW P U Lt Ln Ag.
  destruct (key_some ipString classString typeString keyPrefix q (proj1 RQ)) as (k & K).
  assert (K0 : key q0 = Some k).
  { rewrite <- K. apply (redis_key_iff ipString classString typeString keyPrefix q0 q CT TT IT NS Q0 RQ). exact SQ. }
  cbn [rexec_all rexec]. rewrite Ex. cbv zeta. destruct (Z.leb_spec (ex - t) 0) as [L|_]; [lia|]. rewrite K0.
  destruct (encodeCacheAnswer pack m a) as [v|] eqn:V; [|unfold encodeCacheAnswer in V; rewrite P in V; discriminate V].
  cbn [r_pending r_db]. rewrite nth_error_app2, Nat.sub_diag by lia. cbn [nth_error]. eexists. split; [reflexivity|].
  unfold redis_lookup. rewrite K. cbn [r_db]. unfold db_get. cbn [db_find]. rewrite String.eqb_refl.
  destruct (Z.ltb_spec now (t' + (ex - t))) as [_|L]; [|lia].
  assert (I : i64_ok (unixSeconds (mt_timestamp m))).
  { rewrite Ts. cbn [unixSeconds]. unfold i64_ok, rtime_ok, second in *. pose proof (Z.div_pos ts 1000000000). pose proof (Z.div_le_upper_bound ts 1000000000 (2^32)). lia. }
  rewrite (redis_roundtrip pack unpack m a w v P U I V). rewrite Ts. cbn [unixSeconds].
  rewrite (aged_complete a q (ts / second * second) now r); [reflexivity| |exact Ag].
  unfold rtime_ok, second in *. pose proof (Z.mul_div_le ts 1000000000). pose proof (Z.div_pos ts 1000000000). lia.
Qed.
End Histories.
