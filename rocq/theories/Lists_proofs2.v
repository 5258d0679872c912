(** Lemmas about hosts lists, regular expression lists and combined lists. *)
From Verif Require Import Base Base_proofs Bytes Dns Net Net_proofs Cidr_spec Cidr_proofs Net_spec Cidr_proofs2 Lists_model Lists_spec Lists_proofs.
Local Open Scope N_scope.

Lemma sget_put {A} (m : smap A) k v k' : sget (sput m k v) k' = if String.eqb k' k then Some v else sget m k'.
Proof. reflexivity. Qed.

(** *** The name map. An operation: family, address, key *)
Definition nop := (bool * bytes * string)%type.
Definition sel (v4 : bool) (k : string) (ops : list nop) : list bytes :=
  map (fun o => snd (fst o)) (filter (fun o => Bool.eqb (fst (fst o)) v4 && String.eqb k (snd o)) ops).
Definition has_key (k : string) (ops : list nop) : bool := existsb (fun o => String.eqb k (snd o)) ops.
Definition name_inv (m : smap iprecords) (ops : list nop) : Prop :=
  forall k, sget m k = if has_key k ops then Some (IpRecords (firstn 11 (sel true k ops)) (firstn 11 (sel false k ops))) else None.
Lemma sel_app v4 k a b : sel v4 k (a ++ b) = sel v4 k a ++ sel v4 k b.
Proof. unfold sel. rewrite filter_app, map_app. reflexivity. Qed.
Lemma has_app k a b : has_key k (a ++ b) = has_key k a || has_key k b.
Proof. unfold has_key. apply existsb_app. Qed.
Lemma no_key_sel v4 k ops : has_key k ops = false -> sel v4 k ops = [].
Proof.
  unfold has_key, sel. induction ops as [|o ops IH]; cbn [existsb filter map]; [reflexivity|]. intros H. apply orb_false_iff in H. destruct H as [H1 H2].
  rewrite H1, andb_false_r. exact (IH H2).
Qed.
Lemma firstn_snoc {A} n (l : list A) x : firstn n (l ++ [x]) = if Nat.ltb (length l) n then firstn n l ++ [x] else firstn n l.
Proof.
  rewrite firstn_app. destruct (Nat.ltb_spec (length l) n) as [H|H].
  - rewrite (firstn_all2 l) by lia. replace (n - length l)%nat with (S (n - length l - 1)) by lia. cbn [firstn]. rewrite firstn_nil. reflexivity.
  - replace (n - length l)%nat with O by lia. cbn [firstn]. apply app_nil_r.
Qed.
Lemma len11 {A} (l : list A) : Nat.ltb 10 (length (firstn 11 l)) = negb (Nat.ltb (length l) 11).
Proof. rewrite firstn_length. destruct (Nat.ltb_spec (length l) 11); destruct (Nat.ltb_spec 10 (Nat.min 11 (length l))); try reflexivity; lia. Qed.
Lemma sel_one v4 k v ip key : sel v4 k [(v, ip, key)] = if Bool.eqb v v4 && String.eqb k key then [ip] else [].
Proof. unfold sel. cbn [filter fst snd]. destruct (Bool.eqb v v4 && String.eqb k key); reflexivity. Qed.
Lemma has_one k v ip key : has_key k [(v, ip, key)] = String.eqb k key.
Proof. apply orb_false_r. Qed.
Lemma name_step m ops v4 ip name : name_inv m ops -> name_inv (add_name v4 ip m name) (ops ++ [(v4, ip, lower (trim_suffix dot name))]).
Proof.
  intros H k. unfold add_name. set (key := lower (trim_suffix dot name)). rewrite has_app, !sel_app, !sel_one, has_one.
  assert (G : (match sget m key with Some r => r | None => IpRecords [] [] end) = IpRecords (firstn 11 (sel true key ops)) (firstn 11 (sel false key ops))).
  { rewrite (H key). destruct (has_key key ops) eqn:E; [reflexivity|]. rewrite !(no_key_sel _ _ _ E). reflexivity. }
  rewrite G. clear G. cbn [ir_ip4 ir_ip6]. change maxHostsResponses with 10%nat.
  destruct v4; rewrite len11.
  - cbn [Bool.eqb andb]. destruct (String.eqb_spec k key) as [->|N].
    + rewrite orb_true_r, firstn_snoc, app_nil_r. destruct (Nat.ltb (length (sel true key ops)) 11) eqn:L; cbn [negb].
      * rewrite sget_put, String.eqb_refl. reflexivity.
      * rewrite (H key). destruct (has_key key ops) eqn:E; [reflexivity|]. rewrite (no_key_sel _ _ _ E) in L. discriminate L.
    + rewrite orb_false_r, !app_nil_r. apply String.eqb_neq in N. destruct (Nat.ltb (length (sel true key ops)) 11); cbn [negb].
      * rewrite sget_put, N. exact (H k).
      * exact (H k).
  - cbn [Bool.eqb andb]. destruct (String.eqb_spec k key) as [->|N].
    + rewrite orb_true_r, firstn_snoc, app_nil_r. destruct (Nat.ltb (length (sel false key ops)) 11) eqn:L; cbn [negb].
      * rewrite sget_put, String.eqb_refl. reflexivity.
      * rewrite (H key). destruct (has_key key ops) eqn:E; [reflexivity|]. rewrite (no_key_sel _ _ _ E) in L. discriminate L.
    + rewrite orb_false_r, !app_nil_r. apply String.eqb_neq in N. destruct (Nat.ltb (length (sel false key ops)) 11); cbn [negb].
      * rewrite sget_put, N. exact (H k).
      * exact (H k).
Qed.
Lemma names_step v4 ip names : forall m ops, name_inv m ops ->
  name_inv (fold_left (add_name v4 ip) names m) (ops ++ map (fun n => (v4, ip, lower (trim_suffix dot n))) names).
Proof.
  induction names as [|n names IH]; intros m ops H; cbn [fold_left map].
  - rewrite app_nil_r. exact H.
  - change ((v4, ip, lower (trim_suffix dot n)) :: map (fun n => (v4, ip, lower (trim_suffix dot n))) names) with
      ([(v4, ip, lower (trim_suffix dot n))] ++ map (fun n => (v4, ip, lower (trim_suffix dot n))) names).
    rewrite app_assoc. apply IH. exact (name_step m ops v4 ip n H).
Qed.

Section Hosts.
Variable parseIP : string -> bytes.
Variable reverseAddr : string -> option string.
Hypothesis texts : ip_texts_ok parseIP reverseAddr.

Lemma ipval_zeros n : ipval (repeat 0 n) = 0.
Proof. unfold ipval. induction n; cbn [repeat fold_left]; [reflexivity|exact IHn]. Qed.
Lemma unspec_spec s : (if isUnspecified (parseIP s) then [] else parseIP s) = answer_addr parseIP s.
Proof.
  unfold answer_addr. destruct (proj1 texts s) as [->|[L B]]; [reflexivity|].
  assert (E : isUnspecified (parseIP s) = ((ipval (parseIP s) =? 0) || (ipval (parseIP s) =? 65535 * 2 ^ 32))); [|rewrite E; reflexivity].
  assert (O : ip_ok (parseIP s)) by (split; [exact B|right; exact L]).
  unfold isUnspecified, bytes_eqb. apply eq_true_iff_eq. rewrite !orb_true_iff, !N.eqb_eq.
  assert (Z16 : parseIP s = repeat 0 16 <-> ipval (parseIP s) = 0).
  { split; [intros ->; apply ipval_zeros|]. intros H. apply ipval_inj; [exact B|repeat constructor; reflexivity|rewrite L; reflexivity|rewrite ipval_zeros; exact H]. }
  destruct (is_v4_dec _ O) as [V|V].
  - destruct (canon_v4 _ O V) as (Lc & Bc & Vc). rewrite (val128_16 _ L) in Vc.
    assert (Z4 : canon (parseIP s) = repeat 0 4 <-> ipval (parseIP s) = 65535 * 2 ^ 32).
    { rewrite Vc. split; [intros ->; rewrite ipval_zeros; lia|]. intros H.
      apply ipval_inj; [exact Bc|repeat constructor; reflexivity|rewrite Lc; reflexivity|rewrite ipval_zeros; lia]. }
    destruct (list_eq_dec N.eq_dec (canon (parseIP s)) (repeat 0 4)); destruct (list_eq_dec N.eq_dec (parseIP s) (repeat 0 16)); intuition congruence.
  - destruct (canon_v6 _ O V) as (Ec & _ & _). rewrite Ec.
    assert (NV : ipval (parseIP s) <> 65535 * 2 ^ 32).
    { intros H. apply V. right. split; [exact L|]. rewrite H. reflexivity. }
    destruct (list_eq_dec N.eq_dec (parseIP s) (repeat 0 4)) as [H|]; [rewrite H in L; discriminate L|].
    destruct (list_eq_dec N.eq_dec (parseIP s) (repeat 0 16)); intuition congruence.
Qed.
Lemma v4_spec s : (match to4 (parseIP s) with Some _ => true | None => false end) = v4_text parseIP s.
Proof.
  unfold v4_text. destruct (proj1 texts s) as [->|[L B]]; [reflexivity|].
  assert (O : ip_ok (parseIP s)) by (split; [exact B|right; exact L]).
  destruct (v4_or _ O) as [[H _]|[(M & _ & ->)|(V & _ & ->)]]; [rewrite H in L; discriminate L| |].
  - destruct M as [_ M]. rewrite L, M. reflexivity.
  - rewrite L. cbn [Nat.eqb andb]. destruct (N.eqb_spec (ipval (parseIP s) / 2 ^ 32) 65535) as [E|]; [|reflexivity].
    exfalso. apply V. right. split; assumption.
Qed.

Definition line_ops (line : string) : list nop :=
  match host_line line with
  | Some (s, names) => map (fun n => (v4_text parseIP s, answer_addr parseIP s, lower (trim_suffix dot n))) names
  | None => []
  end.
Definition ptr_inv (m : smap (list string)) (lines : list string) : Prop :=
  forall k, lower k = k -> sget m k = match names_of reverseAddr k lines with [] => None | l => Some l end.
Lemma names_of_app k a b : names_of reverseAddr k (a ++ b) = names_of reverseAddr k a ++ names_of reverseAddr k b.
Proof. apply flat_map_app. Qed.
Lemma add_line_eq db line : add_line parseIP reverseAddr db line =
  match host_line line with
  | None => db
  | Some (s, names) =>
      let f := fold_left (add_name (v4_text parseIP s) (answer_addr parseIP s)) names (filters db) in
      match reverseAddr s with
      | None => HostsDB f (ptrMap db)
      | Some r => HostsDB f (sput (ptrMap db) r (match sget (ptrMap db) r with Some l => l | None => [] end ++ names))
      end
  end.
Proof.
  unfold add_line, host_line. destruct (fields (trim_space line)) as [|s [|n names]]; [reflexivity|destruct (has_prefix "#" s); reflexivity|].
  destruct (has_prefix "#" s); [reflexivity|]. rewrite v4_spec, unspec_spec. reflexivity.
Qed.
Lemma ptr_step m lines line s names r : ptr_inv m lines -> host_line line = Some (s, names) -> reverseAddr s = Some r ->
  ptr_inv (sput m r (match sget m r with Some l => l | None => [] end ++ names)) (lines ++ [line]).
Proof.
  intros P E R k K. pose proof (proj2 texts _ _ R) as Lr.
  assert (NN : names <> []).
  { unfold host_line in E. destruct (fields (trim_space line)) as [|a [|b l]]; try discriminate E. destruct (has_prefix "#" a); [discriminate E|].
    injection E as _ <-. discriminate. }
  rewrite names_of_app. unfold names_of at 2. cbn [flat_map]. rewrite E, R, app_nil_r, sget_put.
  unfold equal_fold. rewrite Lr, K. destruct (String.eqb_spec k r) as [->|N].
  - rewrite String.eqb_refl, (P r Lr). destruct (names_of reverseAddr r lines); cbn [app].
    + destruct names; [contradiction|reflexivity].
    + reflexivity.
  - destruct (String.eqb_spec r k) as [->|_]; [contradiction|]. rewrite app_nil_r. exact (P k K).
Qed.
Lemma hosts_inv lines : name_inv (filters (newHostsDB parseIP reverseAddr lines)) (flat_map line_ops lines) /\
  ptr_inv (ptrMap (newHostsDB parseIP reverseAddr lines)) lines.
Proof.
  induction lines as [|line lines [I P]] using rev_ind; [split; [intros k|intros k K]; reflexivity|].
  unfold newHostsDB in *. rewrite fold_left_app. cbn [fold_left]. rewrite add_line_eq, flat_map_app. cbn [flat_map]. rewrite app_nil_r.
  destruct (host_line line) as [[s names]|] eqn:E.
  - assert (X : line_ops line = map (fun n => (v4_text parseIP s, answer_addr parseIP s, lower (trim_suffix dot n))) names) by (unfold line_ops; rewrite E; reflexivity).
    rewrite X. clear X. destruct (reverseAddr s) as [r|] eqn:R; cbn [filters ptrMap].
    + split; [exact (names_step _ _ names _ _ I)|exact (ptr_step _ _ _ _ _ _ P E R)].
    + split; [exact (names_step _ _ names _ _ I)|]. intros k K. rewrite names_of_app. unfold names_of at 2. cbn [flat_map]. rewrite E, R. cbn [app]. rewrite app_nil_r. exact (P k K).
  - unfold line_ops. rewrite E. rewrite app_nil_r. split; [exact I|]. intros k K. rewrite names_of_app. unfold names_of at 2. cbn [flat_map]. rewrite E.
    rewrite !app_nil_r. exact (P k K).
Qed.

Lemma sel_addrs v4 name lines : sel v4 (lower (trim_suffix dot name)) (flat_map line_ops lines) = addrs_of parseIP v4 name lines.
Proof.
  induction lines as [|line lines IH]; [reflexivity|]. cbn [flat_map]. rewrite sel_app, IH. unfold addrs_of. cbn [flat_map]. f_equal.
  unfold line_ops. destruct (host_line line) as [[s names]|]; [|reflexivity].
  induction names as [|n names IHn]; [destruct (Bool.eqb _ _); reflexivity|].
  unfold sel in *. cbn [map filter fst snd]. unfold same_name, equal_fold.
  destruct (Bool.eqb (v4_text parseIP s) v4); cbn [andb].
  - destruct (String.eqb (lower (trim_suffix dot name)) (lower (trim_suffix dot n))); cbn [map fst snd]; [f_equal|]; exact IHn.
  - exact IHn.
Qed.
Lemma has_named name lines : has_key (lower (trim_suffix dot name)) (flat_map line_ops lines) = true <-> named name lines.
Proof.
  unfold has_key, named. rewrite existsb_exists. split.
  - intros (o & I & E). apply in_flat_map in I. destruct I as (line & I & J). unfold line_ops in J.
    destruct (host_line line) as [[s names]|] eqn:H; [|destruct J]. apply in_map_iff in J. destruct J as (n & <- & J).
    exists line, s, names, n. split; [exact I|]. split; [exact H|]. split; [exact J|exact E].
  - intros (line & s & names & n & I & H & J & E). exists (v4_text parseIP s, answer_addr parseIP s, lower (trim_suffix dot n)).
    split; [|exact E]. apply in_flat_map. exists line. split; [exact I|]. unfold line_ops. rewrite H. apply in_map_iff. exists n. split; [reflexivity|exact J].
Qed.

Theorem hosts_spec name lines q x rest : m_question q = x :: rest ->
  exists r, hosts_match name (newHostsDB parseIP reverseAddr lines) q = Some r /\
    (q_type x = 12 -> mr_ips r = [] /\ mr_names r = names_of reverseAddr (q_name x) lines /\
                      (mr_ok r = true <-> names_of reverseAddr (q_name x) lines <> [])) /\
    (q_type x <> 12 -> mr_names r = [] /\ (mr_ok r = true <-> named (q_name x) lines) /\
       mr_ips r = firstn 11 (addrs_of parseIP (q_type x =? 1) (q_name x) lines)).
Proof.
  intros Q. unfold hosts_match. rewrite Q. eexists. split; [reflexivity|]. destruct (hosts_inv lines) as [I P].
  change TypePTR with 12. change TypeA with 1. destruct (N.eqb_spec (q_type x) 12) as [T|T]; (split; [intros T'|intros T']); try contradiction.
  - rewrite (P _ (lower_idem _)).
    assert (E : names_of reverseAddr (lower (q_name x)) lines = names_of reverseAddr (q_name x) lines).
    { unfold names_of. apply flat_map_ext. intros l. destruct (host_line l) as [[s names]|]; [|reflexivity].
      destruct (reverseAddr s); [|reflexivity]. unfold equal_fold. rewrite lower_idem. reflexivity. }
    rewrite E. destruct (names_of reverseAddr (q_name x) lines); cbn [mr_ips mr_names mr_ok].
    + split; [reflexivity|]. split; [reflexivity|]. split; [discriminate|intros H; destruct (H eq_refl)].
    + split; [reflexivity|]. split; [reflexivity|]. split; [discriminate|reflexivity].
  - cbn [mr_ips mr_names mr_ok]. split; [reflexivity|]. rewrite (I _). rewrite <- has_named, <- !sel_addrs.
    destruct (has_key _ _) eqn:E; cbn [ir_ip4 ir_ip6].
    + split; [tauto|]. destruct (N.eqb (q_type x) 1); reflexivity.
    + split; [split; discriminate|]. rewrite !(no_key_sel _ _ _ E). destruct (N.eqb (q_type x) 1); reflexivity.
Qed.
End Hosts.

(** *** Regular expressions *)
Lemma regexp_load compile rules :
  (forall l, newRegexpDB compile rules = Some l -> forall t f, In (t, f) l <-> exists r, In r rules /\ ~ blank r /\ trim_space r = t /\ compile t = Some f) /\
  (newRegexpDB compile rules <> None <-> forall r, In r rules -> ~ blank r -> compile (trim_space r) <> None).
Proof.
  induction rules as [|r rules [IH1 IH2]].
  - split; [intros l H t f; injection H as <-; split; [intros []|intros (r & [] & _)]|].
    split; [intros _ r []|discriminate].
  - cbn [newRegexpDB]. destruct (String.eqb (trim_space r) "" || has_prefix "#" (trim_space r)) eqn:B.
    + rewrite orb_comm in B. apply blank_bool in B. split.
      * intros l H t f. rewrite (IH1 l H t f). split; intros (x & I & K).
        -- exists x. split; [right; exact I|exact K].
        -- destruct I as [<-|I]; [destruct K as [K _]; contradiction|]. exists x. split; assumption.
      * rewrite IH2. split; intros H x I; [|exact (H x (or_intror I))].
        destruct I as [<-|I]; [intros K; contradiction|exact (H x I)].
    + assert (NB : ~ blank r) by (intros K; apply blank_bool in K; rewrite orb_comm, K in B; discriminate B).
      destruct (compile (trim_space r)) as [re|] eqn:P.
      * destruct (newRegexpDB compile rules) as [l|].
        -- split.
           ++ intros l' H t f. injection H as <-. split.
              ** intros [E|I]; [injection E as <- <-; exists r; split; [left; reflexivity|split; [assumption|split; [reflexivity|exact P]]]|].
                 apply (IH1 l eq_refl) in I. destruct I as (x & I & K). exists x. split; [right; exact I|exact K].
              ** intros (x & [<-|I] & N & T & M); [left; subst t; rewrite P in M; injection M as <-; reflexivity|].
                 right. apply (IH1 l eq_refl). exists x. split; [exact I|]. split; [exact N|]. split; assumption.
           ++ split; [|discriminate]. intros _ x [<-|I] N; [rewrite P; discriminate|]. apply (proj1 IH2); [discriminate|exact I|exact N].
        -- split; [discriminate|]. split; [intros K; destruct (K eq_refl)|]. intros K. exfalso.
           apply (proj2 IH2); [|reflexivity]. intros x I. exact (K x (or_intror I)).
      * split; [discriminate|]. split; [intros K; destruct (K eq_refl)|]. intros K. exfalso. exact (K r (or_introl eq_refl) NB P).
Qed.
(** Matches exactly if some rule does, and reports the first such rule. *)
Theorem regexp_spec compile name rules l q x rest : newRegexpDB compile rules = Some l -> m_question q = x :: rest ->
  exists r, regexp_match name l q = Some r /\ mr_ips r = [] /\ mr_names r = [] /\
   (mr_ok r = true <-> exists t f, (exists rule, In rule rules /\ ~ blank rule /\ trim_space rule = t) /\ compile t = Some f /\ f (lower (q_name x)) = true) /\
   (mr_ok r = false -> mr_match r = None).
Proof.
  intros H Q. unfold regexp_match. rewrite Q. eexists. split; [reflexivity|]. destruct (find _ l) as [[t f]|] eqn:E; cbn [mr_ips mr_names mr_ok no_match].
  - split; [reflexivity|]. split; [reflexivity|]. split; [|discriminate]. split; [intros _|reflexivity].
    apply find_some in E. destruct E as [I E]. apply (proj1 (regexp_load compile rules) l H) in I. destruct I as (r & I & N & T & C).
    exists t, f. split; [exists r; split; [exact I|split; assumption]|]. split; [exact C|exact E].
  - split; [reflexivity|]. split; [reflexivity|]. split; [|reflexivity]. split; [discriminate|].
    intros (t & f & (r & I & N & T) & C & F). exfalso.
    assert (J : In (t, f) l) by (apply (proj1 (regexp_load compile rules) l H); exists r; split; [exact I|split; [exact N|split; assumption]]).
    apply (find_none _ _ E) in J. cbn [snd] in J. rewrite F in J. discriminate J.
Qed.

(** *** Several lists *)
Theorem multi_spec (dbs : list (msg -> option mres)) q : (forall db, In db dbs -> db q <> None) ->
  exists r, multi_match dbs q = Some r /\
   (mr_ok r = true <-> exists pre db post x, dbs = pre ++ db :: post /\ db q = Some x /\ mr_ok x = true) /\
   (mr_ok r = false -> r = no_match) /\
   (forall pre db post x, dbs = pre ++ db :: post -> db q = Some x -> mr_ok x = true ->
      (forall d y, In d pre -> d q = Some y -> mr_ok y = false) -> r = x).
Proof.
  induction dbs as [|db dbs IH]; intros H.
  - exists no_match. split; [reflexivity|]. split; [split; [discriminate|intros ([|] & db & post & x & E & _); discriminate E]|].
    split; [reflexivity|]. intros [|] db post x E; discriminate E.
  - cbn [multi_match]. destruct (db q) as [y|] eqn:D; [|destruct (H db (or_introl eq_refl) D)]. destruct (mr_ok y) eqn:O.
    + exists y. split; [reflexivity|]. split; [split; [intros _; exists [], db, dbs, y; split; [reflexivity|split; assumption]|intros _; exact O]|].
      split; [intros K; rewrite O in K; discriminate K|]. intros [|p pre] d post x E X Ox K; cbn [app] in E; injection E as E1 E2.
      * subst d. rewrite D in X. injection X as <-. reflexivity.
      * subst p. rewrite (K db y (or_introl eq_refl) D) in O. discriminate O.
    + destruct IH as (r & E & M1 & M2 & M3); [intros d I; exact (H d (or_intror I))|]. exists r. split; [exact E|].
      split; [rewrite M1; split|split; [exact M2|]].
      * intros (pre & d & post & x & -> & X & Ox). exists (db :: pre), d, post, x. split; [reflexivity|split; assumption].
      * intros ([|p pre] & d & post & x & F & X & Ox); cbn [app] in F; injection F as F1 F2.
        -- subst d. rewrite D in X. injection X as <-. rewrite O in Ox. discriminate Ox.
        -- exists pre, d, post, x. split; [exact F2|split; assumption].
      * intros [|p pre] d post x F X Ox K; cbn [app] in F; injection F as F1 F2.
        -- subst d. rewrite D in X. injection X as <-. rewrite O in Ox. discriminate Ox.
        -- apply (M3 pre d post x F2 X Ox). intros e z I. exact (K e z (or_intror I)).
Qed.

(** What a hosts list answers is well formed. *)
Lemma hosts_fine parseIP reverseAddr name lines q x rest : ip_texts_ok parseIP reverseAddr -> m_question q = x :: rest ->
  exists r, hosts_match name (newHostsDB parseIP reverseAddr lines) q = Some r /\ (mr_ok r = true -> mr_match r <> None) /\
    Forall (fun ip => ip = [] \/ ip_ok ip) (mr_ips r).
Proof.
  intros T Q. destruct (hosts_spec parseIP reverseAddr T name lines q x rest Q) as (r & E & A & B). exists r. split; [exact E|]. split.
  - unfold hosts_match in E. rewrite Q in E. injection E as <-. destruct (N.eqb (q_type x) TypePTR); discriminate.
  - destruct (N.eq_dec (q_type x) 12) as [P|P]; [destruct (A P) as [-> _]; constructor|]. destruct (B P) as (_ & _ & ->).
    apply Forall_forall. intros ip I. assert (J : In ip (addrs_of parseIP (q_type x =? 1) (q_name x) lines)).
    { rewrite <- (firstn_skipn 11 (addrs_of parseIP (q_type x =? 1) (q_name x) lines)). apply in_or_app. left. exact I. }
    unfold addrs_of in J. apply in_flat_map in J. destruct J as (line & _ & J). destruct (host_line line) as [[s names]|]; [|destruct J].
    destruct (Bool.eqb _ _); [|destruct J]. apply in_map_iff in J. destruct J as (n & <- & _). unfold answer_addr.
    destruct (_ || _); [left; reflexivity|]. destruct (proj1 T s) as [->|[L Bs]]; [left; reflexivity|right; split; [exact Bs|right; exact L]].
Qed.
