From Verif Require Import Base Base_proofs Bytes Bytes_proofs Dns Net Blob_model Blob_spec Blob_proofs
  Lru_model Lru_spec Lru_proofs Lru_proofs2 Cache_model Cache_spec.
From Coq Require Import ZifyBool ZifyNat ZifyN.
Open Scope N_scope.


(** ** C05: the key *)
Section KeyFacts.
Variable ipString : bytes -> string.

Definition sub_of (o : edns0) (d : string * N) : string * N :=
  match o with ECS _ mask _ addr => (ipString addr, mask) | _ => d end.

Lemma fold_apply l : forall k, fold_left (apply_subnet ipString) l k =
  let p := fold_left (fun d o => sub_of o d) l (k_net k, k_mask k) in
  Key (k_q k) (fst p) (k_do k) (k_cd k) (snd p).
Proof.
  induction l as [|o l IH]; intros k; cbn [fold_left]; [destruct k; reflexivity|].
  rewrite IH. destruct o; reflexivity.
Qed.

Lemma fold_sub_snoc l o d : fold_left (fun d o => sub_of o d) (l ++ [o]) d = sub_of o (fold_left (fun d o => sub_of o d) l d).
Proof. rewrite fold_left_app. reflexivity. Qed.

Lemma last_subnet_snoc l o : last_subnet (l ++ [o]) = match subnet_opt o with Some x => Some x | None => last_subnet l end.
Proof.
  induction l as [|x l IH]; cbn [app last_subnet]; [destruct (subnet_opt o); reflexivity|].
  rewrite IH. destruct (subnet_opt o); reflexivity.
Qed.

Definition ecs_ok (o : edns0) : Prop := match o with ECS _ mask _ addr => mask < 256 /\ addr_ok addr | _ => True end.

(* the pair computed by the loop, against the last subnet option *)
Lemma fold_sub_spec l : Forall ecs_ok l ->
  match last_subnet l with
  | None => fold_left (fun d o => sub_of o d) l (""%string, 0) = (""%string, 0)
  | Some (m, c) => exists addr, canon addr = c /\ addr_ok addr /\ m < 256 /\ fold_left (fun d o => sub_of o d) l (""%string, 0) = (ipString addr, m)
  end.
Proof.
  induction l as [|o l IH] using rev_ind; [reflexivity|]. intros H. apply Forall_app in H. destruct H as [H1 H2]. inversion H2; subst.
  rewrite last_subnet_snoc, fold_sub_snoc. specialize (IH H1). destruct o; cbn [subnet_opt sub_of]; auto.
  destruct H3. eauto.
Qed.

Definition sub_pair (q : msg) : string * N :=
  match is_edns0 q with
  | Some o => fold_left (fun d o => sub_of o d) (opt_options o) (""%string, 0)
  | None => (""%string, 0)
  end.

Lemma key_shape q x l : m_question q = x :: l ->
  lruKeyFromQuery ipString q =
  Some (Key (Q (lower (q_name x)) (q_type x) (q_class x)) (fst (sub_pair q)) (do_bit q) (m_cd q) (snd (sub_pair q))).
Proof.
  intros E. unfold lruKeyFromQuery. rewrite E. unfold sub_pair, do_bit. destruct (is_edns0 q); [|reflexivity].
  rewrite fold_apply. reflexivity.
Qed.

Lemma is_edns0_in q o : is_edns0 q = Some o -> In o (m_extra q).
Proof.
  unfold is_edns0. induction (m_extra q) as [|r l IH]; cbn [find_opt]; [discriminate|].
  destruct (find_opt l); [intros [= ->]; right; auto|]. destruct (rr_type r =? TypeOPT); [intros [= ->]; left; reflexivity|discriminate].
Qed.

Lemma sub_pair_cases q : query_ok q ->
  match client_subnet q with
  | None => sub_pair q = (""%string, 0)
  | Some (m, c) => exists addr, canon addr = c /\ addr_ok addr /\ m < 256 /\ sub_pair q = (ipString addr, m)
  end.
Proof.
  intros (_ & _ & He). unfold client_subnet, sub_pair. destruct (is_edns0 q) as [o|] eqn:E; [|reflexivity].
  apply fold_sub_spec. rewrite Forall_forall in He. exact (He o (is_edns0_in _ _ E)).
Qed.

Hypothesis ip_ok : ip_text_ok ipString.

Lemma sub_pair_spec q1 q2 : query_ok q1 -> query_ok q2 -> sub_pair q1 = sub_pair q2 <-> client_subnet q1 = client_subnet q2.
Proof.
  intros H1 H2. destruct ip_ok as [ip1 ip2].
  pose proof (sub_pair_cases q1 H1) as G1. pose proof (sub_pair_cases q2 H2) as G2.
  destruct (client_subnet q1) as [[m1 c1]|], (client_subnet q2) as [[m2 c2]|].
  - destruct G1 as (a1 & E1 & O1 & _ & ->), G2 as (a2 & E2 & O2 & _ & ->). split; intros H.
    + assert (ipString a1 = ipString a2) as Hi by congruence. apply ip2 in Hi; congruence.
    + assert (canon a1 = canon a2) as Hi by congruence. apply ip2 in Hi; congruence.
  - destruct G1 as (a1 & E1 & O1 & _ & ->). rewrite G2. split; [|discriminate]. intros H. exfalso. apply (ip1 a1 O1). congruence.
  - destruct G2 as (a1 & E1 & O1 & _ & ->). rewrite G1. split; [|discriminate]. intros H. exfalso. apply (ip1 a1 O1). congruence.
  - rewrite G1, G2. tauto.
Qed.

Lemma key_iff q1 q2 : query_ok q1 -> query_ok q2 ->
  lruKeyFromQuery ipString q1 = lruKeyFromQuery ipString q2 <-> same_question q1 q2.
Proof.
  intros H1 H2. unfold same_question. pose proof (sub_pair_spec q1 q2 H1 H2) as SP. destruct H1 as [H1 _], H2 as [H2 _].
  destruct (m_question q1) as [|x1 l1] eqn:E1; [contradiction|]. destruct (m_question q2) as [|x2 l2] eqn:E2; [contradiction|].
  rewrite (key_shape _ _ _ E1), (key_shape _ _ _ E2). split.
  - intros H. assert (sub_pair q1 = sub_pair q2) as Hs.
    { destruct (sub_pair q1), (sub_pair q2). cbn [fst snd] in H. congruence. }
    apply SP in Hs. inversion H. tauto.
  - intros (A & B & C & D & E & F). apply SP in F. congruence.
Qed.

Lemma lower_len s : String.length (lower s) = String.length s.
Proof. induction s as [|c s IH]; cbn; [reflexivity|congruence]. Qed.

Lemma query_key q : query_ok q -> exists k, lruKeyFromQuery ipString q = Some k /\ key_ok k.
Proof.
  intros H. pose proof (sub_pair_cases q H) as SC. destruct H as (Hq & Hf & _). destruct (m_question q) as [|x l] eqn:E; [contradiction|].
  rewrite (key_shape _ _ _ E). eexists. split; [reflexivity|].
  inversion Hf as [|? ? (A & B & L) _]; subst. unfold key_ok. cbn [k_q q_name q_type q_class k_net k_mask]. rewrite lower_len.
  destruct (client_subnet q) as [[m c]|].
  - destruct SC as (addr & _ & Ok & Hm & ->). cbn [fst snd]. repeat split; auto. apply ip_ok, Ok.
  - rewrite SC. cbn [fst snd]. repeat split; auto; cbn; lia.
Qed.
End KeyFacts.

(** ** C06: aging *)
Lemma age_rrs_spec age l l' : age_rrs age l = Some l' -> Forall2 (aged_rr (Z.of_N age)) l l'.
Proof.
  revert l'. induction l as [|a l IH]; intros l'; cbn [age_rrs].
  - intros [= <-]. constructor.
  - destruct (is_opt a) eqn:O.
    + destruct (age_rrs age l) as [t|]; cbn [option_map]; [|discriminate]. intros [= <-]. constructor; [|auto].
      unfold aged_rr. rewrite O. reflexivity.
    + destruct (N.leb_spec (rr_ttl a) age); [discriminate|].
      destruct (age_rrs age l) as [t|]; cbn [option_map]; [|discriminate]. intros [= <-]. constructor; [|auto].
      unfold aged_rr. rewrite O. repeat split; cbn [set_ttl rr_ttl]; lia.
Qed.

Lemma age_rrs_complete age l l' : Forall2 (aged_rr (Z.of_N age)) l l' -> age_rrs age l = Some l'.
Proof.
  induction 1 as [|a a' l l' H F IH]; cbn [age_rrs]; [reflexivity|].
  unfold aged_rr in H. destruct (is_opt a).
  - subst. rewrite IH. reflexivity.
  - destruct H as (E & H1 & H2). destruct (N.leb_spec (rr_ttl a) age); [lia|]. rewrite IH. cbn [option_map].
    rewrite E. do 3 f_equal. cbn. lia.
Qed.

Lemma cacheAge_elapsed t0 t : (t - t0 < 2^32 * second)%Z -> Z.of_N (cacheAge t t0) = elapsed t0 t.
Proof.
  unfold cacheAge, elapsed, a_second. intros H. change 1000000000%Z with second.
  destruct (Z.leb_spec t t0) as [L|L].
  - change second with 1000000000%Z. assert ((t - t0) / 1000000000 <= 0)%Z by (apply Z.div_le_upper_bound; lia). lia.
  - assert (0 <= (t - t0) / second)%Z by (apply Z.div_pos; unfold second; lia).
    assert ((t - t0) / second < 2^32)%Z by (apply Z.div_lt_upper_bound; unfold second in *; lia).
    rewrite Z.quot_div_nonneg by (unfold second; lia). rewrite Z.mod_small by (split; assumption). lia.
Qed.

Lemma aged_complete a q t0 t r :
  (t - t0 < 2^32 * second)%Z ->
  aged_msg q t0 t a r -> ageCachedAnswer a q (cacheAge t t0) = Some r.
Proof.
  intros Ht (H1 & H2 & H3 & H4 & H5 & H6 & H7 & H8 & H9 & H10 & H11 & F1 & F2 & F3).
  rewrite <- (cacheAge_elapsed t0 t Ht) in F1, F2, F3. unfold ageCachedAnswer. cbn [m_answer m_ns m_extra set_question set_id].
  rewrite (age_rrs_complete _ _ _ F1), (age_rrs_complete _ _ _ F2), (age_rrs_complete _ _ _ F3).
  destruct r; cbn in *. subst. reflexivity.
Qed.

Lemma aged_sound a q t0 t r :
  (t - t0 < 2^32 * second)%Z ->
  ageCachedAnswer a q (cacheAge t t0) = Some r -> aged_msg q t0 t a r.
Proof.
  intros Ht H. unfold ageCachedAnswer in H. cbn [m_answer m_ns m_extra set_question set_id] in H.
  destruct (age_rrs (cacheAge t t0) (m_answer a)) as [an|] eqn:E1; [|discriminate].
  destruct (age_rrs (cacheAge t t0) (m_ns a)) as [ns|] eqn:E2; [|discriminate].
  destruct (age_rrs (cacheAge t t0) (m_extra a)) as [ex|] eqn:E3; [|discriminate].
  inversion H; subst. apply age_rrs_spec in E1, E2, E3. rewrite (cacheAge_elapsed t0 t Ht) in *.
  unfold aged_msg. cbn. repeat split; assumption.
Qed.

(** ** C07: lifetime *)
Lemma min_loop_spec l : forall mn fd,
  Forall (fun r => rr_ttl r <= max_ttl) l ->
  fst (min_loop l mn fd) = match smallest (filter (fun r => negb (is_opt r)) l) with Some n => N.min mn n | None => mn end
  /\ snd (min_loop l mn fd) = (fd || match smallest (filter (fun r => negb (is_opt r)) l) with Some n => n <? mn | None => false end).
Proof.
  induction l as [|a l IH]; intros mn fd H; cbn [min_loop filter smallest].
  - cbn. rewrite orb_false_r. auto.
  - inversion H; subst. destruct (is_opt a); cbn [negb]; [auto|]. cbn [smallest].
    destruct (N.ltb_spec (rr_ttl a) mn) as [L|L].
    + destruct (IH (rr_ttl a) true) as [E1 E2]; [assumption|]. rewrite E1, E2. cbn [orb].
      destruct (smallest _) as [n|]; split; lia.
    + destruct (IH mn fd) as [E1 E2]; [assumption|]. rewrite E1, E2.
      destruct (smallest _) as [n|]; split; lia.
Qed.

Lemma minTTL_spec a : ttls_ok a ->
  minTTL a = match smallest (records a) with
             | Some n => (n, negb (n =? max_ttl))
             | None => (max_ttl, false)
             end.
Proof.
  intros H. unfold minTTL, records. pose proof (min_loop_spec _ max_ttl false H) as [E1 E2].
  destruct (min_loop _ _ _) as [mn fd]. cbn [fst snd orb] in *. subst.
  destruct (smallest (filter _ _)) as [n|] eqn:E; [|reflexivity].
  assert (n <= max_ttl).
  { unfold ttls_ok in H. clear - H E. revert n E. induction (m_answer a ++ m_ns a ++ m_extra a) as [|r l IH]; intros n E; [discriminate|].
    inversion H; subst. cbn [filter] in E. destruct (negb (is_opt r)); [|eauto]. cbn [smallest] in E.
    destruct (smallest (filter _ l)); inversion E; subst; lia. }
  f_equal; [lia|]. destruct (N.ltb_spec n max_ttl), (N.eqb_spec n max_ttl); try reflexivity; lia.
Qed.

Lemma add_seconds_le t a b : (add_seconds t a <= add_seconds t b)%Z <-> a <= b.
Proof. unfold add_seconds, second. lia. Qed.

Lemma storeInCache_spec o now a : ttls_ok a -> m_tc a = false ->
  match storeInCache o now a, lifetime o a with
  | None, None => True
  | Some m, Some n => mt_timestamp m = Some now /\ mt_expiry m = Some (add_seconds now n)
  | _, _ => False
  end.
Proof.
  intros Ht Htc. unfold storeInCache, lifetime, base_lifetime. rewrite Htc, (minTTL_spec a Ht).
  generalize (smallest (records a)) as sm. generalize (m_rcode a) as rc. intros rc sm.
  assert (Hlim : forall n pf (x : option N),
     match Some (Meta (Some now) (Some match x with None => add_seconds now n
           | Some lim => if (add_seconds now lim <? add_seconds now n)%Z then add_seconds now lim else add_seconds now n end) pf),
       Some (match x with Some l => N.min l n | None => n end) with
     | Some m, Some n => mt_timestamp m = Some now /\ mt_expiry m = Some (add_seconds now n) | _, _ => False end).
  { intros n pf x. cbn. split; [reflexivity|]. destruct x as [lim|]; [|reflexivity]. f_equal.
    destruct (Z.ltb_spec (add_seconds now lim) (add_seconds now n)) as [L|L].
    - f_equal. assert (~ (n <= lim)) by (rewrite <- (add_seconds_le now); lia). lia.
    - apply add_seconds_le in L. f_equal. lia. }
  assert (Hpos : forall x : option N,
    match (let '(mn, ok) := match sm with Some n => (n, negb (n =? max_ttl)) | None => (max_ttl, false) end in
     match (if ok then Some (add_seconds now mn, o_eligible o <? mn) else Some (add_seconds now (o_negttl o), false)) with
     | None => None
     | Some (expiry, prefetch) => Some (Meta (Some now) (Some match x with None => expiry
           | Some lim => if (add_seconds now lim <? expiry)%Z then add_seconds now lim else expiry end) prefetch)
     end),
     match (match sm with Some n => if n =? max_ttl then Some (o_negttl o) else Some n | None => Some (o_negttl o) end) with
     | None => None | Some n => Some (match x with Some l => N.min l n | None => n end) end with
     | Some m, Some n => mt_timestamp m = Some now /\ mt_expiry m = Some (add_seconds now n) | None, None => True | _, _ => False end).
  { intros x. destruct sm as [n|]; [destruct (n =? max_ttl); cbn [negb]|]; apply Hlim. }
  assert (Hd : forall (x : option N),
    match (let '(mn, ok) := match sm with Some n => (n, negb (n =? max_ttl)) | None => (max_ttl, false) end in @None meta),
     @None N with
     | Some m, Some n => mt_timestamp m = Some now /\ mt_expiry m = Some (add_seconds now n) | None, None => True | _, _ => False end).
  { intros _. destruct sm as [n|]; exact I. }
  destruct rc as [|[[[p|p|]|[p|p|]|]|[[p|p|]|[p|p|]|]|]];
   lazymatch goal with
   | |- context [o_rcodemax o ?r] => first [exact (Hpos (o_rcodemax o r)) | exact (Hd None) | idtac]
   end.
  assert (Hf : N.min (o_negttl o) 300 = if o_negttl o <? 300 then o_negttl o else 300) by (destruct (N.ltb_spec (o_negttl o) 300); lia).
  rewrite Hf. destruct sm as [n|]; cbn [orb N.eqb Pos.eqb RcodeSuccess RcodeNameError RcodeRefused RcodeNotImplemented RcodeFormatError RcodeServerFailure];
  (destruct (o_negttl o <? 300); apply Hlim).
Qed.

(** The blob's fields hold what was stored. *)
Lemma lifetime_bound o a n : opts_ok o -> ttls_ok a -> lifetime o a = Some n -> n <= max_ttl.
Proof.
  intros (H1 & H2) Ht. unfold lifetime, base_lifetime. destruct (m_tc a); [discriminate|].
  assert (Hs : forall n, smallest (records a) = Some n -> n <= max_ttl).
  { clear -Ht. unfold ttls_ok, records in *. intros n. revert n. induction (m_answer a ++ m_ns a ++ m_extra a) as [|r l IH]; intros n E; [discriminate|].
    inversion Ht; subst. cbn [filter] in E. destruct (negb (is_opt r)); [|eauto]. cbn [smallest] in E.
    destruct (smallest (filter _ l)); inversion E; subst; lia. }
  intros E.
  assert (exists n0, n <= n0 /\ n0 <= max_ttl) as (n0 & A & B); [|lia].
  match type of E with match ?X with _ => _ end = _ => destruct X as [m|] eqn:EX; [|discriminate] end.
  exists m. split; [destruct (o_rcodemax o (m_rcode a)); inversion E; lia|].
  assert (Hpos : forall m, match smallest (records a) with Some n => if n =? max_ttl then Some (o_negttl o) else Some n | None => Some (o_negttl o) end = Some m -> m <= max_ttl).
  { intros m' Hm. destruct (smallest (records a)) as [x|]; [destruct (x =? max_ttl)|]; inversion Hm; subst; auto. }
  assert (max_ttl = 4294967295) by reflexivity.
  destruct (m_rcode a) as [|[[[p|p|]|[p|p|]|]|[[p|p|]|[p|p|]|]|]]; try discriminate; auto; inversion EX; subst; lia.
Qed.
