(** Soundness of NSEC denial. *)
From Verif Require Import Base Base_proofs Bytes Dns Name_model Name_spec Name_proofs Denial_model Denial_spec.
From Coq Require Import ZifyBool ZifyNat ZifyN.
Open Scope N_scope.

Lemma is_lt_iff c : is_lt c = true <-> c = Lt.
Proof. destruct c; cbn; split; congruence. Qed.
Lemma suffix_refl n : suffix n n.
Proof. exists []. reflexivity. Qed.
Lemma suffix_trans a b c : suffix a b -> suffix b c -> suffix a c.
Proof. intros (p & ->) (q & ->). exists (q ++ p). rewrite app_assoc. reflexivity. Qed.
Lemma suffix_length a b : suffix a b -> (length a <= length b)%nat.
Proof. intros (p & ->). rewrite app_length. lia. Qed.
Lemma suffix_skipn a b : suffix a b <-> (length a <= length b)%nat /\ a = skipn (length b - length a) b.
Proof.
  split.
  - intros (p & ->). rewrite app_length. split; [lia|]. replace (length p + length a - length a)%nat with (length p) by lia. rewrite skipn_app, skipn_all, Nat.sub_diag. reflexivity.
  - intros [L ->]. exists (firstn (length b - length a) b). symmetry. apply firstn_skipn.
Qed.
Lemma skipn_add {A} (x y : nat) : forall l : list A, skipn x (skipn y l) = skipn (x + y) l.
Proof. induction y as [|y IH]; intros l; [rewrite Nat.add_0_r; reflexivity|]. rewrite Nat.add_succ_r. destruct l as [|a l]; [rewrite !skipn_nil; reflexivity|]. apply IH. Qed.
Lemma suffix_linear a b q : suffix a q -> suffix b q -> (length a <= length b)%nat -> suffix a b.
Proof.
  intros A B L. apply suffix_skipn in A. apply suffix_skipn in B. destruct A as [LA EA]. destruct B as [LB EB]. apply suffix_skipn. split; [exact L|].
  transitivity (skipn (length q - length a) q); [exact EA|]. transitivity (skipn (length b - length a) (skipn (length q - length b) q)); [rewrite skipn_add; f_equal; lia|rewrite <- EB; reflexivity].
Qed.
Lemma suffix_rev a b : suffix a b <-> exists r, rev b = rev a ++ r.
Proof.
  split.
  - intros (p & ->). exists (rev p). apply rev_app_distr.
  - intros (r & E). exists (rev r). rewrite <- (rev_involutive b), E, rev_app_distr, rev_involutive. reflexivity.
Qed.
Lemma suffix_below n a : lname n = n -> lname a = a -> suffix n a <-> below n a.
Proof. intros N A. unfold suffix, below. rewrite N, A. split; exact (fun H => H). Qed.
Lemma lname_skipn k n : lname n = n -> lname (skipn k n) = skipn k n.
Proof. unfold lname. intros H. rewrite <- skipn_map, H. reflexivity. Qed.
Lemma name_ok_skipn k n : name_ok n -> name_ok (skipn k n).
Proof. intros H. unfold name_ok in *. rewrite <- (firstn_skipn k n) in H. apply Forall_app in H. apply H. Qed.
Lemma lname_suffix a b : suffix a b -> lname b = b -> lname a = a.
Proof. intros S. apply suffix_skipn in S. destruct S as [_ ->]. apply lname_skipn. Qed.
Lemma name_ok_suffix a b : suffix a b -> name_ok b -> name_ok a.
Proof. intros S. apply suffix_skipn in S. destruct S as [_ ->]. apply name_ok_skipn. Qed.

Section ZONE.
Variable z : zone.
Hypothesis Z : zone_ok z.

Lemma owner_ok o : is_owner z o -> name_ok o /\ lname o = o /\ suffix (z_apex z) o.
Proof.
  intros H. destruct Z as (_ & _ & F). apply in_map_iff in H. destruct H as (p & <- & H). rewrite Forall_forall in F. apply (F p H).
Qed.
Lemma data_owner o ts : In (o, ts) (z_data z) -> is_owner z o.
Proof. intros H. apply in_map_iff. exists (o, ts). split; [reflexivity|exact H]. Qed.
Lemma has_owner o t : has z o t -> is_owner z o.
Proof. intros (ts & H & _). apply (data_owner o ts H). Qed.
Lemma data_fun o ts ts' : In (o, ts) (z_data z) -> In (o, ts') (z_data z) -> ts = ts'.
Proof.
  destruct Z as (N & _ & _). clear Z. revert N. induction (z_data z) as [|p l IH]; intros N H H'; [contradiction|]. cbn [map] in N. inversion N as [|? ? N1 N2]; subst.
  destruct H as [->|H]; destruct H' as [H'|H'].
  - congruence.
  - exfalso. apply N1. apply in_map_iff. exists (o, ts'). split; [reflexivity|assumption].
  - exfalso. apply N1. subst p. apply in_map_iff. exists (o, ts). split; [reflexivity|assumption].
  - apply IH; assumption.
Qed.
Lemma apex_owner : is_owner z (z_apex z).
Proof. apply Z. Qed.
Lemma owner_node o : is_owner z o -> is_node z o.
Proof. intros H. split; [apply (owner_ok o H)|]. exists o. split; [exact H|apply suffix_refl]. Qed.
Lemma apex_node : is_node z (z_apex z).
Proof. apply owner_node, apex_owner. Qed.

(** What a covering record says about q. *)
Definition gap (q o nx : name) : Prop :=
  is_owner z o /\ is_owner z nx /\ name_lt o q /\
  (forall x, is_owner z x -> name_lt x q -> x = o \/ name_lt x o) /\
  (forall x, is_owner z x -> name_lt q x -> name_lt q nx /\ (x = nx \/ name_lt nx x)) /\ ~ is_owner z q.
Lemma name_lt_trichotomy a b : lname a = a -> lname b = b -> name_lt a b \/ a = b \/ name_lt b a.
Proof.
  intros A B. unfold name_lt. rewrite A, B. destruct (labels_lt_total (rev a) (rev b)) as [H|[H|H]]; [left; exact H| |right; right; exact H].
  right. left. rewrite <- (rev_involutive a), H. apply rev_involutive.
Qed.
Lemma name_lt_irrefl a : ~ name_lt a a.
Proof. apply labels_lt_irrefl. Qed.
Lemma name_lt_trans a b c : name_lt a b -> name_lt b c -> name_lt a c.
Proof. apply labels_lt_trans. Qed.
Lemma name_lt_lname a b : name_lt (lname a) (lname b) <-> name_lt a b.
Proof. unfold name_lt. rewrite !lname_idem. split; exact (fun H => H). Qed.

Lemma covers_gap r q q' : authentic z r -> name_ok q' -> lname q' = q -> suffix (z_apex z) q -> nsecCovers r (show q') = true ->
  exists o nx, gap q o nx /\ canonicalName (n_owner r) = show o /\ canonicalName (n_next r) = show nx.
Proof.
  intros (o & nx & ts & o' & nx' & D & NX & Oo & Lo & Eo & On & Ln & En & _ & G) Oq Lq Sq C. unfold nsecCovers in C. cbv zeta in C.
  rewrite Eo, En in C. rewrite !canonicalName_show in C by assumption. rewrite Lo, Ln, Lq in C.
  pose proof (data_owner o ts D) as Ow. destruct (owner_ok o Ow) as (Ook & Ol & _). destruct (owner_ok nx NX) as (Nok & Nl & _).
  assert (Qok : name_ok q) by (rewrite <- Lq; apply lname_ok, Oq). assert (Ql : lname q = q) by (rewrite <- Lq; apply lname_idem).
  destruct (String.eqb_spec (show q) (show o)) as [E|NE]; [discriminate C|]. assert (QO : q <> o) by (intros ->; apply NE; reflexivity).
  exists o, nx. rewrite Eo, En, !canonicalName_show, Lo, Ln by assumption. split; [|split; reflexivity].
  assert (Apex : forall x, name_lt q x -> x = z_apex z -> False).
  { intros x L ->. assert (B : below (z_apex z) q) by (destruct (owner_ok _ apex_owner) as (_ & AL & _); exact (proj1 (suffix_below _ _ AL Ql) Sq)). apply below_lt in B. destruct B as [B|B].
    - unfold same_name in B. unfold name_lt in L. rewrite B in L. exact (labels_lt_irrefl _ L).
    - exact (name_lt_irrefl _ (name_lt_trans _ _ _ L B)). }
  destruct (is_lt (canonicalNameCmp (show o) (show nx))) eqn:W.
  - apply is_lt_iff, show_cmp_lt in W; [|assumption|assumption]. apply andb_prop in C. destruct C as [C1 C2]. apply is_lt_iff, show_cmp_lt in C1; [|assumption|assumption].
    apply is_lt_iff, show_cmp_lt in C2; [|assumption|assumption]. destruct G as [[_ G]|[E _]]; [|exfalso; apply (Apex nx); assumption].
    split; [exact Ow|]. split; [exact NX|]. split; [exact C1|]. split; [|split].
    + intros x X L. destruct (owner_ok x X) as (_ & Xl & _). destruct (name_lt_trichotomy x o Xl Ol) as [H|[H|H]]; [right; exact H|left; exact H|].
      exfalso. apply (G x X). split; [exact H|]. exact (name_lt_trans _ _ _ L C2).
    + intros x X L. split; [exact C2|]. destruct (owner_ok x X) as (_ & Xl & _). destruct (name_lt_trichotomy x nx Xl Nl) as [H|[H|H]]; [|left; exact H|right; exact H].
      exfalso. apply (G x X). split; [|exact H]. exact (name_lt_trans _ _ _ C1 L).
    + intros X. apply (G q X). split; assumption.
  - assert (W' : ~ name_lt o nx) by (intros H; apply show_cmp_lt in H; [|assumption|assumption]; rewrite H in W; discriminate W).
    destruct G as [[H _]|[E G]]; [contradiction|]. apply orb_prop in C. destruct C as [C|C]; apply is_lt_iff, show_cmp_lt in C; try assumption.
    + split; [exact Ow|]. split; [exact NX|]. split; [exact C|]. split; [|split].
      * intros x X L. destruct (owner_ok x X) as (_ & Xl & _). destruct (name_lt_trichotomy x o Xl Ol) as [H|[H|H]]; [right; exact H|left; exact H|]. exfalso. exact (G x X H).
      * intros x X L. exfalso. exact (G x X (name_lt_trans _ _ _ C L)).
      * intros X. exact (G q X C).
    + exfalso. exact (Apex nx C E).
Qed.

(** A name between two others that are both at or below n is at or below n. *)
Lemma suffix_between n a b c : lname a = a -> lname b = b -> lname c = c -> suffix n a -> suffix n c -> (a = b \/ name_lt a b) -> (b = c \/ name_lt b c) -> suffix n b.
Proof.
  intros A B C Sa Sc H1 H2. pose proof (lname_suffix n a Sa A) as N. apply (proj2 (suffix_below _ _ N B)). apply (proj1 (suffix_below _ _ N A)) in Sa. apply (proj1 (suffix_below _ _ N C)) in Sc.
  apply (below_between n a b c Sa Sc); [destruct H1 as [->|H1]|destruct H2 as [->|H2]]; first [left; reflexivity|right; assumption].
Qed.

Lemma agree_suffix a b k : (k <= length a)%nat -> (k <= length b)%nat -> (k <= agree (rev a) (rev b))%nat <-> skipn (length a - k) a = skipn (length b - k) b.
Proof.
  intros A B. rewrite <- (rev_length a) in A. rewrite <- (rev_length b) in B.
  assert (X : forall (l : name), (k <= length (rev l))%nat -> rev (firstn k (rev l)) = skipn (length l - k) l).
  { intros l _. rewrite firstn_rev, rev_involutive. reflexivity. }
  split.
  - intros H. rewrite <- (X a A), <- (X b B). f_equal. apply agree_firstn, H.
  - intros H. apply agree_max; [exact A|exact B|]. rewrite <- (X a A), <- (X b B) in H. rewrite <- (rev_involutive (firstn k (rev a))), H. apply rev_involutive.
Qed.
Lemma agree_common e a b : suffix e a -> suffix e b -> (length e <= agree (rev a) (rev b))%nat.
Proof.
  intros A B. apply suffix_skipn in A. apply suffix_skipn in B. destruct A as [LA EA]. destruct B as [LB EB]. apply agree_suffix; [exact LA|exact LB|]. congruence.
Qed.

(** The closest encloser that the code computes from a covering record *)
Lemma gap_encloser q o nx : gap q o nx -> lname q = q -> suffix (z_apex z) q ->
  let k := Nat.max (agree (rev q) (rev o)) (agree (rev q) (rev nx)) in
  (k <= length q)%nat /\ closest z q (skipn (length q - k) q).
Proof.
  intros (O & NX & Loq & GL & GR & NO) Ql Sq k. destruct (owner_ok o O) as (_ & Ol & So). destruct (owner_ok nx NX) as (_ & Nl & Sn).
  assert (K : (k <= length q)%nat) by (pose proof (agree_le (rev q) (rev o)) as X; pose proof (agree_le (rev q) (rev nx)) as Y; rewrite rev_length in *; lia).
  split; [exact K|]. assert (LK : length (skipn (length q - k) q) = k) by (rewrite skipn_length; lia).
  assert (SQ : suffix (skipn (length q - k) q) q) by (exists (firstn (length q - k) q); symmetry; apply firstn_skipn).
  assert (NODE : is_node z (skipn (length q - k) q)).
  { split.
    - assert (LA : (length (z_apex z) <= k)%nat) by (pose proof (agree_common _ _ _ Sq So); lia). apply (suffix_linear _ _ q Sq SQ). rewrite LK. exact LA.
    - assert (M : k = agree (rev q) (rev o) \/ k = agree (rev q) (rev nx)) by lia.
      assert (W : forall w, k = agree (rev q) (rev w) -> suffix (skipn (length q - k) q) w).
      { intros w E. pose proof (agree_le (rev q) (rev w)) as [_ X]. rewrite rev_length in X. rewrite <- E in X. assert (Y : (k <= agree (rev q) (rev w))%nat) by lia.
        apply agree_suffix in Y; [|exact K|exact X]. rewrite Y. exists (firstn (length w - k) w). symmetry. apply firstn_skipn. }
      destruct M as [M|M]; [exists o|exists nx]; (split; [assumption|]); apply W; exact M. }
  split; [exact NODE|]. split; [exact SQ|]. intros e' (_ & x & X & Sx) Se. rewrite LK. destruct (owner_ok x X) as (_ & Xl & _).
  destruct (name_lt_trichotomy x q Xl Ql) as [H|[H|H]].
  - assert (S1 : suffix e' o) by (apply (suffix_between e' x o q); try assumption; [destruct (GL x X H) as [->|?]; [left; reflexivity|right; assumption]|right; assumption]).
    pose proof (agree_common _ _ _ Se S1). lia.
  - subst x. contradiction.
  - destruct (GR x X H) as [L E]. assert (S1 : suffix e' nx) by (apply (suffix_between e' q nx x); try assumption; [right; assumption|destruct E as [->|?]; [left; reflexivity|right; assumption]]).
    pose proof (agree_common _ _ _ Se S1). lia.
Qed.


Lemma wild_show e : name_ok e -> e <> [] -> canonicalName (wild (show e)) = show (star (lname e)).
Proof.
  intros E NE. destruct e as [|l e]; [contradiction|]. assert (W : wild (show (l :: e)) = show (star (l :: e))) by reflexivity.
  rewrite W, canonicalName_show; [reflexivity|]. constructor; [|exact E]. split; [discriminate|]. constructor; [lia|constructor].
Qed.
Lemma star_ok e : name_ok e -> name_ok (star e).
Proof. intros E. constructor; [|exact E]. split; [discriminate|]. constructor; [lia|constructor]. Qed.
Lemma star_lname e : lname e = e -> lname (star e) = star e.
Proof. intros E. unfold star, lname in *. cbn [map]. rewrite E. reflexivity. Qed.
Lemma authentic_owner r : authentic z r -> exists o ts, In (o, ts) (z_data z) /\ canonicalName (n_owner r) = show o /\ (forall t, In t (n_types r) <-> In t ts).
Proof.
  intros (o & nx & ts & o' & nx' & D & NX & Oo & Lo & Eo & _ & _ & _ & T & _). exists o, ts. split; [exact D|]. split; [|exact T]. rewrite Eo, canonicalName_show, Lo by exact Oo. reflexivity.
Qed.
Lemma encloser_show r q o nx : name_ok q -> lname q = q -> is_owner z o -> is_owner z nx -> canonicalName (n_owner r) = show o -> canonicalName (n_next r) = show nx ->
  nsecClosestEncloser (show q) r = show (skipn (length q - Nat.max (agree (rev q) (rev o)) (agree (rev q) (rev nx))) q).
Proof.
  intros Qok Ql O NX Eo En. unfold nsecClosestEncloser. cbv zeta. rewrite Eo, En. destruct (owner_ok o O) as (Ook & Ol & _). destruct (owner_ok nx NX) as (Nok & Nl & _).
  rewrite !compareDomainName_show by assumption. rewrite Ql, Ol, Nl. apply lastNLabels_show; assumption.
Qed.
Lemma closest_unique q e e' : closest z q e -> closest z q e' -> e = e'.
Proof.
  intros (N1 & S1 & M1) (N2 & S2 & M2). pose proof (M1 e' N2 S2). pose proof (M2 e N1 S1). apply suffix_skipn in S1. apply suffix_skipn in S2. destruct S1 as [_ E1]. destruct S2 as [_ E2].
  transitivity (skipn (length q - length e) q); [exact E1|]. replace (length e) with (length e') by lia. symmetry. exact E2.
Qed.
Lemma closest_apex q e : closest z q e -> suffix (z_apex z) e.
Proof. intros (N & _). apply N. Qed.

Lemma wildcard_covered_sound rs : forall e, Forall (authentic z) rs -> name_ok e -> lname e = e -> suffix (z_apex z) e -> wildcard_covered rs (show (star e)) = true -> ~ is_owner z (star e).
Proof.
  induction rs as [|r rs IH]; intros e F E L S H; cbn [wildcard_covered] in H; [discriminate H|]. inversion F as [|? ? A F']; subst.
  destruct (String.eqb (canonicalName (n_owner r)) (show (star e))); [discriminate H|]. destruct (nsecCovers r (show (star e))) eqn:C; [|apply (IH e F' E L S H)].
  destruct (covers_gap r (star e) (star e) A (star_ok e E) (star_lname e L)) with (2 := C) as (o & nx & G & _).
  - apply (suffix_trans _ e); [exact S|]. exists [[42]]. reflexivity.
  - apply G.
Qed.

(** ** NXDOMAIN *)
Lemma nxdomain_sound rs q' q : Forall (authentic z) rs -> name_ok q' -> lname q' = q -> suffix (z_apex z) q -> ~ is_owner z [[42]] ->
  nsecProvesNXDOMAIN rs (show q') = true -> ~ is_owner z q /\ forall e, closest z q e -> ~ is_owner z (star e).
Proof.
  intros F Oq Lq Sq RW H. unfold nsecProvesNXDOMAIN in H. cbv zeta in H. rewrite canonicalName_show, Lq in H by exact Oq.
  assert (Qok : name_ok q) by (rewrite <- Lq; apply lname_ok, Oq). assert (Ql : lname q = q) by (rewrite <- Lq; apply lname_idem).
  destruct (find (fun n => nsecCovers n (show q)) rs) as [r|] eqn:E; [|discriminate H]. apply find_some in E. destruct E as [I C].
  rewrite Forall_forall in F. destruct (covers_gap r q q (F r I) Qok Ql Sq C) as (o & nx & G & Eo & En). rewrite <- Forall_forall in F.
  split; [apply G|]. intros e CE. destruct (gap_encloser q o nx G Ql Sq) as [K CE']. rewrite (closest_unique q e _ CE CE') in *.
  rewrite (encloser_show r q o nx) in H; try assumption; [|apply G|apply G]. set (e0 := skipn _ q) in *.
  assert (E0 : name_ok e0) by apply name_ok_skipn, Qok. assert (L0 : lname e0 = e0) by apply lname_skipn, Ql.
  destruct e0 as [|l e0'] eqn:X; [exact RW|]. rewrite <- X in *. rewrite wild_show in H by (try assumption; rewrite X; discriminate). rewrite L0 in H.
  apply (wildcard_covered_sound rs e0 F E0 L0); [apply (closest_apex q e0 CE')|exact H].
Qed.

(** ** NODATA *)
Lemma lacks_not_in ts t : lacks ts t = true -> forall t', t' = t \/ t' = 5 -> ~ In t' ts.
Proof.
  unfold lacks, contains. intros H t' T I. apply andb_prop in H. destruct H as [H1 H2]. apply negb_true_iff in H1, H2.
  destruct T as [->| ->]; [apply not_true_iff_false in H1; apply H1|apply not_true_iff_false in H2; apply H2]; apply existsb_exists; eexists; (split; [eassumption|apply N.eqb_refl]).
Qed.
Lemma show_eq_owner a b : name_ok a -> name_ok b -> String.eqb (show a) (show b) = true -> a = b.
Proof. intros A B H. apply String.eqb_eq in H. apply show_inj; assumption. Qed.
Lemma no_types o ts (ts' : list N) t : In (o, ts) (z_data z) -> (forall x, In x ts' <-> In x ts) -> lacks ts' t = true -> forall t', t' = t \/ t' = 5 -> ~ has z o t'.
Proof. intros D T L t' E (ts2 & D2 & I). rewrite (data_fun o ts2 ts D2 D) in I. apply T in I. exact (lacks_not_in ts' t L t' E I). Qed.

Lemma wildcard_nodata_sound rs cs q t : Forall (authentic z) rs -> Forall (authentic z) cs -> name_ok q -> lname q = q -> suffix (z_apex z) q -> ~ is_owner z [[42]] ->
  wildcard_nodata rs cs (show q) t = true -> ~ answers z q t.
Proof.
  intros F Fc Qok Ql Sq RW. induction Fc as [|c cs A _ IH]; cbn [wildcard_nodata]; [discriminate|]. destruct (nsecCovers c (show q)) eqn:C; [|exact IH].
  destruct (covers_gap c q q A Qok Ql Sq C) as (o & nx & G & Eo & En). destruct (gap_encloser q o nx G Ql Sq) as [K CE].
  rewrite (encloser_show c q o nx); try assumption; [|apply G|apply G]. set (e0 := skipn _ q) in *.
  assert (E0 : name_ok e0) by apply name_ok_skipn, Qok. assert (L0 : lname e0 = e0) by apply lname_skipn, Ql.
  destruct (find _ rs) as [w|] eqn:W; [|exact IH]. intros H. intros (t' & T & [Hq|(_ & e & CE' & Hw)]).
  - apply has_owner in Hq. destruct G as (_ & _ & _ & _ & _ & NO). contradiction.
  - rewrite (closest_unique q e e0 CE' CE) in Hw. destruct e0 as [|l e0'] eqn:X; [apply RW; apply (has_owner _ _ Hw)|]. rewrite <- X in *.
    apply find_some in W. destruct W as [I W]. rewrite wild_show in W by (try assumption; rewrite X; discriminate). rewrite L0 in W.
    rewrite Forall_forall in F. destruct (authentic_owner w (F w I)) as (o2 & ts & D & E2 & TS). rewrite E2 in W. apply show_eq_owner in W; [|apply (owner_ok o2), (data_owner o2 ts D)|apply star_ok, E0].
    subst o2. exact (no_types _ _ _ _ D TS H t' T Hw).
Qed.
Lemma nodata_sound rs q' q t : Forall (authentic z) rs -> name_ok q' -> lname q' = q -> suffix (z_apex z) q -> ~ is_owner z [[42]] ->
  nsecProvesNODATA rs (show q') t = true -> ~ answers z q t.
Proof.
  intros F Oq Lq Sq RW H. unfold nsecProvesNODATA in H. cbv zeta in H. rewrite canonicalName_show, Lq in H by exact Oq.
  assert (Qok : name_ok q) by (rewrite <- Lq; apply lname_ok, Oq). assert (Ql : lname q = q) by (rewrite <- Lq; apply lname_idem).
  destruct (find _ rs) as [r|] eqn:W; [|apply (wildcard_nodata_sound rs rs q t); assumption].
  apply find_some in W. destruct W as [I W]. rewrite Forall_forall in F. destruct (authentic_owner r (F r I)) as (o & ts & D & E & TS). rewrite E in W.
  pose proof (data_owner o ts D) as O. apply show_eq_owner in W; [|apply (owner_ok o O)|exact Qok]. subst o.
  intros (t' & T & [Hq|(NN & _)]); [exact (no_types _ _ _ _ D TS H t' T Hq)|]. apply NN, owner_node, O.
Qed.
(** ** Proof that a delegation has no DS *)
Lemma ds_denial_sound r q : authentic z r -> name_ok q -> lname q = q -> nsecDeniesDS r (show q) = true -> has z q 2 /\ ~ has z q 43 /\ ~ has z q 6.
Proof.
  intros A Qok Ql H. unfold nsecDeniesDS in H. apply andb_prop in H. destruct H as [H1 H2]. destruct (authentic_owner r A) as (o & ts & D & E & TS). rewrite E in H1.
  apply show_eq_owner in H1; [|apply (owner_ok o), (data_owner o ts D)|exact Qok]. subst o. unfold insecureBitmap, contains in H2. apply andb_prop in H2. destruct H2 as [H2 H3]. apply andb_prop in H2. destruct H2 as [H1 H2].
  apply negb_true_iff in H2, H3. split; [|split].
  - exists ts. split; [exact D|]. apply existsb_exists in H1. destruct H1 as (x & I & X). apply N.eqb_eq in X. subst x. apply TS, I.
  - intros (ts2 & D2 & I). rewrite (data_fun _ _ _ D2 D) in I. apply TS in I. apply not_true_iff_false in H2. apply H2. apply existsb_exists. exists 43. split; [exact I|reflexivity].
  - intros (ts2 & D2 & I). rewrite (data_fun _ _ _ D2 D) in I. apply TS in I. apply not_true_iff_false in H3. apply H3. apply existsb_exists. exists 6. split; [exact I|reflexivity].
Qed.
End ZONE.

Lemma denial_cases rs qname t rcode : nsecProvesDenial rs qname t rcode = true ->
  (rcode = 3 /\ nsecProvesNXDOMAIN rs qname = true) \/ (rcode = 0 /\ nsecProvesNODATA rs qname t = true).
Proof.
  unfold nsecProvesDenial. destruct rs; [discriminate|]. destruct (N.eqb_spec rcode RcodeNameError) as [->|_]; [left; split; [reflexivity|assumption]|].
  destruct (N.eqb_spec rcode RcodeSuccess) as [->|_]; [right; split; [reflexivity|assumption]|discriminate].
Qed.
Lemma denial_sound z : zone_ok z -> forall rs q' q t rcode, Forall (authentic z) rs -> name_ok q' -> lname q' = q -> suffix (z_apex z) q ->
  ~ is_owner z [[42]] -> nsecProvesDenial rs (show q') t rcode = true ->
  (rcode = 3 /\ ~ is_owner z q /\ forall e, closest z q e -> ~ is_owner z (star e)) \/ (rcode = 0 /\ ~ answers z q t).
Proof.
  intros Z rs q' q t rcode A Nq E S R H. apply denial_cases in H. destruct H as [[-> H]|[-> H]].
  - left. split; [reflexivity|]. exact (nxdomain_sound z Z rs q' q A Nq E S R H).
  - right. split; [reflexivity|]. exact (nodata_sound z Z rs q' q t A Nq E S R H).
Qed.
