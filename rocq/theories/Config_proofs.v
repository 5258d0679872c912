From Verif Require Import Base Config_model Config_spec.
From Coq Require Import Relations ListDec.
Local Open Scope nat_scope.

Lemma mem_spec x l : mem x l = true <-> In x l.
Proof. unfold mem. rewrite existsb_exists. split; [intros (y & I & E); apply String.eqb_eq in E; subst; exact I|intros I; exists x; split; [exact I|apply String.eqb_refl]]. Qed.
Lemma mem_false x l : mem x l = false <-> ~ In x l.
Proof. rewrite <- mem_spec. destruct (mem x l); split; congruence. Qed.

Lemma addV_sound l : forall V V', NoDup V -> addVertices l V = Some V' -> V' = V ++ map fst l /\ NoDup V'.
Proof.
  induction l as [|[id v] l IH]; intros V V' N E; cbn in E; [injection E as <-; rewrite app_nil_r; auto|]. destruct (mem id V) eqn:M; [discriminate|]. apply mem_false in M. apply IH in E; [|apply Permutation_NoDup with (id :: V); [apply Permutation_cons_append|constructor; assumption]]. destruct E as [-> D]. split; [rewrite <- app_assoc; reflexivity|exact D].
Qed.
Lemma addV_complete l : forall V, NoDup (V ++ map fst l) -> addVertices l V = Some (V ++ map fst l).
Proof.
  induction l as [|[id v] l IH]; intros V N; cbn [addVertices map fst]; [rewrite app_nil_r; reflexivity|]. cbn [map fst] in N. assert (M : ~ In id V) by (apply NoDup_remove_2 in N; intros X; apply N, in_or_app; auto). apply mem_false in M. rewrite M. rewrite IH by (rewrite <- app_assoc; exact N). rewrite <- app_assoc. reflexivity.
Qed.

(** Paths *)
Definition step (E : list edge) (a b : string) : Prop := In (a, b) E.
Notation path E := (clos_refl_trans string (step E)).
Notation way E := (clos_trans string (step E)).
Lemma way_path E a b : way E a b -> path E a b.
Proof. induction 1; [apply rt_step; assumption|eapply rt_trans; eauto]. Qed.
Lemma path_way E a b : path E a b -> a = b \/ way E a b.
Proof. induction 1 as [x y H|x|x y z _ [->|H1] _ [->|H2]]; auto; [right; apply t_step; exact H|right; eapply t_trans; eauto]. Qed.
Fixpoint walk (p : list edge) (a b : string) : Prop := match p with [] => a = b | (x, y) :: p' => x = a /\ walk p' y b end.
Lemma walk_app p1 p2 a b : walk (p1 ++ p2) a b <-> exists c, walk p1 a c /\ walk p2 c b.
Proof.
  revert a. induction p1 as [|[x y] p1 IH]; intros a; cbn.
  - split; [eauto|intros (c & -> & H); exact H].
  - rewrite IH. split; [intros (-> & c & H1 & H2); eauto|intros (c & (-> & H1) & H2); eauto].
Qed.
Lemma path_walk E a b : path E a b -> exists p, walk p a b /\ incl p E.
Proof.
  intros H. apply clos_rt_rt1n in H. induction H as [a|a c b S _ (p & W & I)]; [exists []; split; [reflexivity|intros x []]|]. exists ((a, c) :: p). split; [split; auto|]. intros x [<-|X]; auto.
Qed.
Lemma walk_path E p : forall a b, walk p a b -> incl p E -> path E a b.
Proof.
  induction p as [|[x y] p IH]; intros a b W I; cbn in W; [subst; apply rt_refl|]. destruct W as [-> W]. eapply rt_trans; [apply rt_step; apply I; left; reflexivity|]. apply IH; [exact W|]. intros z Z. apply I. right. exact Z.
Qed.
Definition edge_dec : forall a b : edge, {a = b} + {a <> b}.
Proof. decide equality; apply string_dec. Defined.
Lemma dup_split {A} (dec : forall a b : A, {a = b} + {a <> b}) (l : list A) : NoDup l \/ exists x l1 l2 l3, l = l1 ++ x :: l2 ++ x :: l3.
Proof.
  induction l as [|a l [N|(x & l1 & l2 & l3 & ->)]]; [left; constructor| |right; exists x, (a :: l1), l2, l3; reflexivity].
  destruct (in_dec dec a l) as [I|I]; [|left; constructor; assumption]. right. apply in_split in I. destruct I as (l1 & l2 & ->). exists a, [], l1, l2. reflexivity.
Qed.
Lemma simple_walk E n : forall p a b, length p <= n -> walk p a b -> incl p E -> exists p', walk p' a b /\ incl p' E /\ NoDup p'.
Proof.
  induction n as [|n IH]; intros p a b L W I.
  - destruct p; [exists []; repeat split; [exact W|exact I|constructor]|cbn in L; lia].
  - destruct (dup_split edge_dec p) as [N|([x y] & l1 & l2 & l3 & ->)]; [exists p; auto|].
    apply (IH (l1 ++ (x, y) :: l3)).
    + rewrite !app_length in *. cbn in *. rewrite app_length in L. cbn in L. lia.
    + apply walk_app in W. destruct W as (c & W1 & W2). cbn in W2. destruct W2 as (E1 & W2). subst c. apply walk_app in W2. destruct W2 as (c & _ & E2 & W3). apply walk_app. exists x. split; [exact W1|]. split; [reflexivity|exact W3].
    + intros z Z. apply I. apply in_app_or in Z. apply in_or_app. destruct Z as [Z|[Z|Z]]; [auto|right; left; exact Z|]. right. right. apply in_or_app. right. right. exact Z.
Qed.
Lemma reach_walk E : forall p n a b, walk p a b -> incl p E -> length p <= n -> reach n E a b = true.
Proof.
  induction p as [|[x y] p IH]; intros n a b W I L.
  - cbn in W. subst. destruct n; cbn [reach]; rewrite String.eqb_refl; reflexivity.
  - destruct W as [<- W]. destruct n as [|n]; [cbn in L; lia|]. cbn [reach]. apply orb_true_iff. right. apply existsb_exists. exists (x, y). split; [apply I; left; reflexivity|]. cbn [fst snd]. rewrite String.eqb_refl. apply IH; [exact W| |cbn in L; lia]. intros z Z. apply I. right. exact Z.
Qed.
Lemma reach_path E a b : reach (length E) E a b = true <-> path E a b.
Proof.
  split.
  - generalize (length E) as n. intros n. revert a. induction n as [|n IH]; intros a H; cbn [reach] in H; apply orb_true_iff in H; destruct H as [H|H]; try (apply String.eqb_eq in H; subst; apply rt_refl); [discriminate H|].
    apply existsb_exists in H. destruct H as ([x y] & I & H). apply andb_true_iff in H. cbn in H. destruct H as [H1 H2]. apply String.eqb_eq in H1. subst x. eapply rt_trans; [apply rt_step; exact I|apply IH, H2].
  - intros H. apply path_walk in H. destruct H as (p & W & I). destruct (simple_walk E (length p) p a b (le_n _) W I) as (p' & W' & I' & N). apply reach_walk with p'; [exact W'|exact I'|]. apply NoDup_incl_length; assumption.
Qed.

(** Adding edges *)
Definition acyclic (E : list edge) : Prop := forall x, ~ way E x x.
Lemma way_cons E a b x y : ~ path E b a -> way ((a, b) :: E) x y -> way E x y \/ (path E x a /\ path E b y).
Proof.
  intros NP. induction 1 as [x y [H|H]|x y z _ IH1 _ IH2].
  - injection H as <- <-. right. split; apply rt_refl.
  - left. apply t_step. exact H.
  - destruct IH1 as [A|[A1 A2]], IH2 as [B|[B1 B2]].
    + left. eapply t_trans; eauto.
    + right. split; [eapply rt_trans; [apply way_path, A|exact B1]|exact B2].
    + right. split; [exact A1|eapply rt_trans; [exact A2|apply way_path, B]].
    + exfalso. apply NP. exact (rt_trans _ _ _ _ _ A2 B1).
Qed.
Lemma way_mono E E' x y : incl E E' -> way E x y -> way E' x y.
Proof. intros I. induction 1; [apply t_step, I; assumption|eapply t_trans; eauto]. Qed.
Definition nonempty (e : edge) : bool := negb (String.eqb (snd e) "").
Lemma edge_eqb_spec a b : edge_eqb a b = true <-> a = b.
Proof. destruct a, b. unfold edge_eqb. cbn. rewrite andb_true_iff, !String.eqb_eq. split; [intros [-> ->]; reflexivity|intros H; injection H; auto]. Qed.
Lemma existsb_edge a E : existsb (edge_eqb a) E = true <-> In a E.
Proof. rewrite existsb_exists. split; [intros (x & I & H); apply edge_eqb_spec in H; subst; exact I|intros I; exists a; split; [exact I|apply edge_eqb_spec; reflexivity]]. Qed.
Definition in_V (V : list string) (e : edge) : Prop := In (fst e) V /\ In (snd e) V.
Lemma addE_sound V es : forall E E', acyclic E -> NoDup E -> Forall (in_V V) E -> addEdges V es E = Some E' ->
  acyclic E' /\ NoDup E' /\ Forall (in_V V) E' /\ Permutation E' (filter nonempty es ++ E).
Proof.
  induction es as [|[a b] es IH]; intros E E' A N F H; cbn [addEdges] in H.
  - injection H as <-. auto.
  - cbn [filter]. unfold nonempty at 1. cbn [snd]. destruct (String.eqb b "") eqn:B; [apply IH; assumption|]. cbn [negb].
    destruct (negb (mem a V) || negb (mem b V) || String.eqb a b || existsb (edge_eqb (a, b)) E || reach (length E) E b a) eqn:C; [discriminate H|].
    repeat (apply orb_false_iff in C; let D := fresh "D" in destruct C as [C D]). apply negb_false_iff, mem_spec in C. apply negb_false_iff, mem_spec in D2.
    assert (NP : ~ path E b a) by (intros P; apply reach_path in P; congruence).
    apply IH in H.
    + destruct H as (H1 & H2 & H3 & H4). repeat split; try assumption. rewrite H4. cbn [app]. symmetry. apply Permutation_middle.
    + intros x W. apply way_cons in W; [|exact NP]. destruct W as [W|[W1 W2]]; [exact (A _ W)|]. apply NP. eapply rt_trans; eauto.
    + constructor; [|exact N]. intros I. apply existsb_edge in I. congruence.
    + constructor; [split; assumption|exact F].
Qed.
Lemma addE_complete V es : forall E, acyclic (filter nonempty es ++ E) -> NoDup (filter nonempty es ++ E) -> Forall (in_V V) (filter nonempty es) -> addEdges V es E <> None.
Proof.
  induction es as [|[a b] es IH]; intros E A N F; cbn [addEdges]; [discriminate|]. cbn [filter] in *. change (nonempty (a, b)) with (negb (String.eqb b "")) in A, N, F. destruct (String.eqb b "") eqn:B; [apply IH; assumption|]. cbn [negb] in *. apply Forall_cons_iff in F. destruct F as [[F1 F2] F]. cbn [fst snd] in *.
  cbn [app] in A, N. assert (IE : incl E ((a, b) :: filter nonempty es ++ E)) by (intros z Z; right; apply in_or_app; right; exact Z).
  replace (negb (mem a V)) with false by (symmetry; apply negb_false_iff, mem_spec, F1). replace (negb (mem b V)) with false by (symmetry; apply negb_false_iff, mem_spec, F2).
  destruct (String.eqb_spec a b) as [->|AB]; [exfalso; apply (A b), t_step; left; reflexivity|].
  destruct (existsb (edge_eqb (a, b)) E) eqn:X; [exfalso; apply existsb_edge in X; inversion N; subst; apply H1, in_or_app; right; exact X|].
  destruct (reach (length E) E b a) eqn:R.
  - exfalso. apply reach_path, path_way in R. destruct R as [R|R]; [congruence|]. apply (A a). eapply t_trans; [apply t_step; left; reflexivity|]. exact (way_mono _ _ _ _ IE R).
  - cbn [orb]. apply IH; [| |exact F].
    + intros x W. apply (A x). apply (way_mono (filter nonempty es ++ (a, b) :: E)); [|exact W]. intros z Z. apply in_app_or in Z. destruct Z as [Z|[Z|Z]]; [right; apply in_or_app; auto|left; exact Z|apply IE, Z].
    + eapply Permutation_NoDup; [|exact N]. apply Permutation_middle.
Qed.

(** Leaves *)
Lemma leaf_spec E id : leaf E id = true <-> forall b, ~ In (id, b) E.
Proof.
  unfold leaf. rewrite negb_true_iff. destruct (existsb (fun e => String.eqb (fst e) id) E) eqn:X; split; try congruence.
  - apply existsb_exists in X. destruct X as ([x b] & I & Q). cbn in Q. apply String.eqb_eq in Q. subst x. intros H. destruct (H _ I).
  - intros _ b I. assert (existsb (fun e => String.eqb (fst e) id) E = true); [|congruence]. apply existsb_exists. exists (id, b). split; [exact I|apply String.eqb_refl].
Qed.
Fixpoint chain (E : list edge) (l : list string) : Prop := match l with a :: ((b :: _) as l') => In (a, b) E /\ chain E l' | _ => True end.
Lemma chain_way E l1 x l2 y l3 : chain E (l1 ++ x :: l2 ++ y :: l3) -> way E x y.
Proof.
  intros C. assert (C' : chain E (x :: l2 ++ y :: l3)).
  { clear -C. induction l1 as [|a l1 IH]; [exact C|]. apply IH. cbn [app] in C. destruct (l1 ++ x :: l2 ++ y :: l3); [exact I|]. apply C. }
  clear C. revert x C'. induction l2 as [|b l2 IH]; intros x [C1 C2]; [apply t_step; exact C1|]. eapply t_trans; [apply t_step; exact C1|apply IH, C2].
Qed.
Lemma has_leaf V E : V <> [] -> Forall (in_V V) E -> acyclic E -> filter (leaf E) V <> [].
Proof.
  intros NE F A H. assert (S : forall a, In a V -> exists b, In (a, b) E).
  { intros a I. destruct (leaf E a) eqn:L.
    - assert (In a (filter (leaf E) V)) by (apply filter_In; auto). rewrite H in H0. destruct H0.
    - unfold leaf in L. apply negb_false_iff, existsb_exists in L. destruct L as ([x b] & I' & Q). cbn in Q. apply String.eqb_eq in Q. subst x. eauto. }
  rewrite Forall_forall in F.
  assert (B : forall n a, In a V -> exists l, length l = n /\ chain E (a :: l) /\ incl (a :: l) V).
  { induction n as [|n IH]; intros a I; [exists []; split; [reflexivity|]; split; [exact Logic.I|intros z [<-|[]]; exact I]|]. destruct (S a I) as [b Q]. destruct (IH b) as (l & L & C & IN); [apply (F _ Q)|]. exists (b :: l). split; [cbn; lia|]. split; [split; assumption|]. intros z [<-|Z]; auto. }
  destruct V as [|a V]; [contradiction|]. destruct (B (length (a :: V)) a (or_introl eq_refl)) as (l & L & C & IN). destruct (dup_split string_dec (a :: l)) as [N|(x & l1 & l2 & l3 & Q)].
  - apply NoDup_incl_length in IN; [|exact N]. cbn [length] in *. lia.
  - rewrite Q in C. apply (A x). eapply chain_way; eauto.
Qed.

(** The loop *)
Lemma lookups_spec l m : forall o, lookups l m = Some o <-> Forall2 (fun r x => lookup r m = Some x) l o.
Proof.
  induction l as [|r l IH]; intros o; cbn; [split; [intros H; injection H as <-; constructor|intros H; inversion H; reflexivity]|].
  destruct (lookup r m) as [x|] eqn:L; [|split; [discriminate|intros H; inversion H; congruence]].
  destruct (lookups l m) as [xs|].
  - split; [intros H; injection H as <-; constructor; [exact L|apply IH; reflexivity]|intros H; inversion H as [|? y ? ys H1 H2]; subst; apply IH in H2; congruence].
  - split; [discriminate|intros H; inversion H as [|? y ? ys H1 H2]; subst; apply IH in H2; congruence].
Qed.
Lemma lookups_none l m : lookups l m = None <-> exists r, In r l /\ lookup r m = None.
Proof.
  induction l as [|r l IH]; cbn; [split; [discriminate|intros (r & [] & _)]|]. destruct (lookup r m) as [x|] eqn:L; [|split; eauto].
  destruct (lookups l m) as [xs|].
  - split; [discriminate|]. intros (r' & [<-|I] & Q); [congruence|]. assert (X : Some xs = None) by (apply IH; eauto). discriminate X.
  - split; [|reflexivity]. intros _. destruct (proj1 IH eq_refl) as (r' & I & Q). eauto.
Qed.
Lemma remove_perm (x : string) V : NoDup V -> In x V -> Permutation V (x :: filter (fun y => negb (String.eqb y x)) V).
Proof.
  induction V as [|a V IH]; intros N I; [destruct I|]. inversion N as [|? ? N1 N2]; subst. cbn [filter]. destruct (String.eqb_spec a x) as [->|D]; cbn [negb].
  - apply perm_skip. replace (filter (fun y => negb (String.eqb y x)) V) with V; [reflexivity|]. clear -N1. induction V as [|b V IH]; [reflexivity|]. cbn. destruct (String.eqb_spec b x) as [->|]; [exfalso; apply N1; left; reflexivity|]. cbn. f_equal. apply IH. intros H. apply N1. right. exact H.
  - destruct I as [->|I]; [contradiction|]. rewrite perm_swap. apply perm_skip, IH; assumption.
Qed.
Lemma nodup_fst {A B} (l : list (A * B)) a v w : NoDup (map fst l) -> In (a, v) l -> In (a, w) l -> v = w.
Proof.
  induction l as [|[x y] l IH]; intros N I J; [destruct I|]. cbn in N. inversion N as [|? ? N1 N2]; subst. destruct I as [I|I], J as [J|J].
  - congruence.
  - injection I as -> ->. exfalso. apply N1. apply (in_map fst) in J. exact J.
  - injection J as -> ->. exfalso. apply N1. apply (in_map fst) in I. exact I.
  - apply IH; assumption.
Qed.

Section LOOP.
Variable build : string -> bool.
Variable c : config.
Variable E0 : list edge.
Variable m0 : list (string * obj).
Hypothesis HN : NoDup (ids c).
Hypothesis HE : ~ In ""%string (ids c).
Hypothesis H0 : forall a b, In (a, b) E0 <-> refers c a b.
Hypothesis HV : Forall (in_V (ids c)) E0.
Hypothesis HA : acyclic E0.
Hypothesis Hm : lookup "" m0 = None.

Definition wired_in (m : list (string * obj)) (a : string) (v : value) : Prop := exists main aux, lookup a m = Some (Obj a main aux) /\
  Forall2 (fun r o => lookup r m = Some o) (needed v) main /\
  Forall2 (fun r o => if String.eqb r "" then o = None else exists x, o = Some x /\ lookup r m = Some x) (optional v) aux.
Definition good (a : string) (v : value) : Prop := build a = true /\ ~ In ""%string (needed v).
Record inv (V : list string) (E : list edge) (m : list (string * obj)) (built : list string) : Prop := {
  i_perm : Permutation (V ++ built) (ids c);
  i_E : forall a b, In (a, b) E <-> In (a, b) E0 /\ In a V /\ In b V;
  i_built : forall a v, In a built -> In (a, v) (nodes c) -> wired_in m a v /\ good a v;
  i_keys : forall r, ~ In r built -> lookup r m = lookup r m0;
  i_order : forall b1 a b2, built = b1 ++ a :: b2 -> forall r, refers c a r -> In r b1 }.
Definition ready (built : list string) (a : string) : Prop := forall r, refers c a r -> In r built.

Lemma needed_refs r v : In r (needed v) -> In r (refs v).
Proof. destruct v; cbn; auto. intros H. apply in_or_app. auto. Qed.
Lemma optional_refs r v : In r (optional v) -> In r (refs v).
Proof. destruct v; cbn; intros H; try destruct H; apply in_or_app; auto. Qed.
Lemma wired_stable m m' a v : In (a, v) (nodes c) -> (forall r, r = a \/ refers c a r \/ r = ""%string -> lookup r m' = lookup r m) -> wired_in m a v -> wired_in m' a v.
Proof.
  intros I S (main & aux & L & F & G). exists main, aux. split; [rewrite S by auto; exact L|].
  assert (Q : forall r, In r (refs v) -> lookup r m' = lookup r m).
  { intros r R. destruct (string_dec r "") as [->|D]; [apply S; auto|]. apply S. right. left. exists v. auto. }
  split.
  - clear -F Q. assert (Q' : forall r, In r (needed v) -> lookup r m' = lookup r m) by (intros r R; apply Q, needed_refs, R). clear Q. induction F as [|r o l os H F IH]; constructor; [rewrite Q' by (left; reflexivity); exact H|]. apply IH. intros r' R. apply Q'. right. exact R.
  - assert (Q' : forall r, In r (optional v) -> lookup r m' = lookup r m) by (intros r R; apply Q, optional_refs, R). clear -G Q'. induction G as [|r o l os H F IH]; constructor; [|apply IH; intros r' R; apply Q'; right; exact R]. destruct (String.eqb r ""); [exact H|]. rewrite Q' by (left; reflexivity). exact H.
Qed.
Lemma value_of_in a v : In (a, v) (nodes c) -> value_of a (nodes c) = Some v.
Proof.
  intros I. unfold value_of. destruct (find (fun n => String.eqb (fst n) a) (nodes c)) as [[x w]|] eqn:F.
  - apply find_some in F. destruct F as [J Q]. cbn in Q. apply String.eqb_eq in Q. subst x. cbn. f_equal. exact (nodup_fst _ _ _ _ HN J I).
  - apply find_none with (x := (a, v)) in F; [|exact I]. cbn in F. rewrite String.eqb_refl in F. discriminate F.
Qed.
Lemma in_node a : In a (ids c) -> exists v, In (a, v) (nodes c).
Proof. intros I. apply in_map_iff in I. destruct I as ([x v] & <- & I). eauto. Qed.
Lemma instantiate_spec a v m built : In (a, v) (nodes c) -> ready built a -> (forall r, In r built -> exists o, lookup r m = Some o) -> lookup "" m = None ->
  match instantiate build a v m with
  | None => build a = false \/ In ""%string (needed v)
  | Some o => good a v /\ exists main aux, o = Obj a main aux /\ Forall2 (fun r o => lookup r m = Some o) (needed v) main /\
     Forall2 (fun r o => if String.eqb r "" then o = None else exists x, o = Some x /\ lookup r m = Some x) (optional v) aux
  end.
Proof.
  intros I R B N. unfold good.
  assert (X : lookups (needed v) m = None -> In ""%string (needed v)).
  { intros X. apply lookups_none in X. destruct X as (r & J & Q). destruct (string_dec r "") as [->|D]; [exact J|]. destruct (B r) as [o O]; [|congruence]. apply R. exists v. split; [exact I|]. split; [apply needed_refs, J|exact D]. }
  assert (Y : forall l, lookups (needed v) m = Some l -> ~ In ""%string (needed v)).
  { intros l Y J. assert (lookups (needed v) m = None) by (apply lookups_none; eauto). congruence. }
  destruct v as [|main aux|rs]; cbn [instantiate needed] in *.
  - destruct (build a); [|auto]. split; [auto|]. exists [], []. split; [reflexivity|]. split; constructor.
  - destruct (lookups main m) as [l|] eqn:L; [|auto]. destruct (build a); [|auto]. split; [split; [reflexivity|exact (Y l eq_refl)]|]. exists l, (map (fun x => lookup x m) aux). split; [reflexivity|]. split; [apply lookups_spec, L|].
    cbn [optional]. assert (Z : forall r, In r aux -> r <> ""%string -> exists o, lookup r m = Some o).
    { intros r J D. apply B, R. exists (VGroup main aux). split; [exact I|]. split; [apply in_or_app; auto|exact D]. }
    clear -Z N. induction aux as [|r aux IH]; constructor; [|apply IH; intros r' J; apply Z; right; exact J]. destruct (String.eqb_spec r "") as [->|D]; [exact N|]. destruct (Z r (or_introl eq_refl) D) as [o O]. eauto.
  - destruct (lookups rs m) as [l|] eqn:L; [|auto]. destruct (build a); [|auto]. split; [split; [reflexivity|exact (Y l eq_refl)]|]. exists l, []. split; [reflexivity|]. split; [apply lookups_spec, L|constructor].
Qed.
Lemma inv_built_in V E m b a : inv V E m b -> In a b -> In a (ids c).
Proof. intros I H. eapply Permutation_in; [apply (i_perm _ _ _ _ I)|]. apply in_or_app. auto. Qed.
Lemma inv_V_in V E m b a : inv V E m b -> In a V -> In a (ids c).
Proof. intros I H. eapply Permutation_in; [apply (i_perm _ _ _ _ I)|]. apply in_or_app. auto. Qed.
Lemma inv_nodup V E m b : inv V E m b -> NoDup (V ++ b).
Proof. intros I. eapply Permutation_NoDup; [symmetry; apply (i_perm _ _ _ _ I)|exact HN]. Qed.
Lemma nodup_app_l {A} (l1 l2 : list A) : NoDup (l1 ++ l2) -> NoDup l1.
Proof. induction l1 as [|a l1 IH]; intros N; [constructor|]. cbn in N. inversion N as [|? ? N1 N2]; subst. constructor; [intros I; apply N1, in_or_app; auto|auto]. Qed.
Lemma nodup_app_not {A} (l1 l2 : list A) x : NoDup (l1 ++ l2) -> In x l1 -> ~ In x l2.
Proof. induction l1 as [|a l1 IH]; intros N I J; [destruct I|]. cbn in N. inversion N as [|? ? N1 N2]; subst. destruct I as [->|I]; [apply N1, in_or_app; auto|exact (IH N2 I J)]. Qed.
Lemma split_last {A} (l1 l2 b : list A) (x a : A) : b ++ [x] = l1 ++ a :: l2 -> (b = l1 /\ x = a /\ l2 = []) \/ exists l2', l2 = l2' ++ [x] /\ b = l1 ++ a :: l2'.
Proof.
  intros H. destruct l2 as [|y l2] using rev_ind.
  - left. apply app_inj_tail in H. destruct H. auto.
  - right. exists l2. rewrite app_comm_cons, app_assoc in H. apply app_inj_tail in H. destruct H as [-> ->]. auto.
Qed.
Lemma inv_step V E m b a v o : inv V E m b -> In a V -> In (a, v) (nodes c) -> ready b a -> instantiate build a v m = Some o ->
  inv (filter (fun x => negb (String.eqb x a)) V) (filter (fun e => negb (String.eqb (fst e) a) && negb (String.eqb (snd e) a)) E) ((a, o) :: m) (b ++ [a]).
Proof.
  intros I IV IN R IO. pose proof (inv_nodup _ _ _ _ I) as N. assert (NB : ~ In a b) by exact (nodup_app_not _ _ _ N IV).
  assert (L0 : lookup "" m = None) by (rewrite (i_keys _ _ _ _ I); [exact Hm|intros H; exact (HE (inv_built_in _ _ _ _ _ I H))]).
  assert (AE : a <> ""%string) by (intros ->; exact (HE (inv_V_in _ _ _ _ _ I IV))).
  pose proof (instantiate_spec a v m b IN R) as S. rewrite IO in S. destruct S as (G & main & aux & -> & W1 & W2).
  { intros r J. destruct (in_node r) as [w K]; [exact (inv_built_in _ _ _ _ _ I J)|]. destruct (i_built _ _ _ _ I r w J K) as ((mn & ax & Q & _) & _). eauto. } { exact L0. }
  assert (ST : forall x r, x <> a -> ready b x -> (r = x \/ refers c x r \/ r = ""%string) -> lookup r ((a, Obj a main aux) :: m) = lookup r m).
  { intros x r D RX [->|[H| ->]]; cbn; (destruct (String.eqb_spec a x) as [E1|_]; [congruence|]) || idtac; [reflexivity| |].
    - destruct (String.eqb_spec a r) as [->|_]; [exfalso; apply NB, RX, H|reflexivity].
    - destruct (String.eqb_spec a "") as [->|_]; [congruence|reflexivity]. }
  constructor.
  - rewrite <- (i_perm _ _ _ _ I). rewrite (remove_perm a V (nodup_app_l _ _ N) IV) at 2. cbn [app]. rewrite app_assoc, <- Permutation_cons_append. reflexivity.
  - intros x y. rewrite !filter_In, (i_E _ _ _ _ I). cbn [fst snd]. rewrite andb_true_iff. tauto.
  - intros x w J K. apply in_app_or in J. destruct J as [J|[<-|[]]].
    + destruct (i_built _ _ _ _ I x w J K) as [W GX]. split; [|exact GX]. apply wired_stable with m; [exact K| |exact W]. intros r. apply ST; [intros ->; contradiction|]. intros r' RR. apply in_split in J. destruct J as (b1 & b2 & ->). apply in_or_app. left. exact (i_order _ _ _ _ I b1 x b2 eq_refl r' RR).
    + assert (w = v) by exact (nodup_fst _ _ _ _ HN K IN). subst w. split; [|exact G]. exists main, aux. split; [cbn; rewrite String.eqb_refl; reflexivity|].
      assert (Q : forall r, In r (refs v) -> lookup r ((a, Obj a main aux) :: m) = lookup r m).
      { intros r RR. cbn. destruct (String.eqb_spec a r) as [<-|_]; [|reflexivity]. exfalso. apply NB, R. exists v. auto. }
      split.
      * assert (Q' : forall r, In r (needed v) -> lookup r ((a, Obj a main aux) :: m) = lookup r m) by (intros r RR; apply Q, needed_refs, RR). revert W1 Q'. generalize (needed v) as l. generalize ((a, Obj a main aux) :: m) as m'. clear. intros m' l F Q. induction F as [|r o l os H F IH]; constructor; [rewrite Q by (left; reflexivity); exact H|]. apply IH. intros r' RR. apply Q. right. exact RR.
      * assert (Q' : forall r, In r (optional v) -> lookup r ((a, Obj a main aux) :: m) = lookup r m) by (intros r RR; apply Q, optional_refs, RR). revert W2 Q'. generalize (optional v) as l. generalize ((a, Obj a main aux) :: m) as m'. clear. intros m' l F Q. induction F as [|r o l os H F IH]; constructor; [|apply IH; intros r' RR; apply Q; right; exact RR]. destruct (String.eqb r ""); [exact H|]. rewrite Q by (left; reflexivity). exact H.
  - intros r NR. cbn. destruct (String.eqb_spec a r) as [->|_]; [exfalso; apply NR, in_or_app; right; left; reflexivity|]. apply (i_keys _ _ _ _ I). intros H. apply NR, in_or_app. auto.
  - intros b1 x b2 Q r RR. apply split_last in Q. destruct Q as [(-> & -> & ->)|(b2' & -> & ->)]; [exact (R r RR)|]. exact (i_order _ _ _ _ I b1 x b2' eq_refl r RR).
Qed.
Definition bad : Prop := exists a v, In (a, v) (nodes c) /\ (build a = false \/ In ""%string (needed v)).
Lemma round_spec : forall leaves V E m b, inv V E m b -> NoDup leaves -> incl leaves V -> Forall (ready b) leaves ->
  match round build (nodes c) leaves V E m b with None => bad | Some (V', E', m', b') => inv V' E' m' b' /\ b' = b ++ leaves end.
Proof.
  induction leaves as [|a leaves IH]; intros V E m b I N S R; cbn [round]; [rewrite app_nil_r; auto|].
  assert (IV : In a V) by (apply S; left; reflexivity). destruct (in_node a) as [v IN]; [exact (inv_V_in _ _ _ _ _ I IV)|]. rewrite (value_of_in a v IN). inversion N as [|? ? N1 N2]; subst. apply Forall_cons_iff in R. destruct R as [R1 R2].
  destruct (instantiate build a v m) as [o|] eqn:O.
  - pose proof (inv_step _ _ _ _ _ _ _ I IV IN R1 O) as I'. apply IH in I'; [|exact N2| |].
    + destruct (round _ _ _ _ _ _ _) as [[[[V' E'] m'] b']|]; [|exact I']. destruct I' as [I' ->]. split; [exact I'|]. rewrite <- app_assoc. reflexivity.
    + intros x X. apply filter_In. split; [apply S; right; exact X|]. apply negb_true_iff, String.eqb_neq. intros ->. contradiction.
    + eapply Forall_impl; [|exact R2]. intros x RX r RR. apply in_or_app. left. exact (RX r RR).
  - exists a, v. split; [exact IN|]. pose proof (instantiate_spec a v m b IN R1) as Q. rewrite O in Q. apply Q.
    + intros r J. destruct (in_node r) as [w K]; [exact (inv_built_in _ _ _ _ _ I J)|]. destruct (i_built _ _ _ _ I r w J K) as ((mn & ax & QQ & _) & _). eauto.
    + rewrite (i_keys _ _ _ _ I); [exact Hm|]. intros H. exact (HE (inv_built_in _ _ _ _ _ I H)).
Qed.
Variable ord : nat -> list string -> list string.
Hypothesis HO : any_order ord.
Lemma rounds_spec : forall fuel V E m b, length V <= fuel -> inv V E m b ->
  match rounds build ord fuel (nodes c) V E m b with None => False | Some None => bad | Some (Some (m', b')) => exists E', inv [] E' m' b' end.
Proof.
  induction fuel as [|fuel IH]; intros V E m b L I.
  - destruct V; [cbn; eauto|cbn in L; lia].
  - destruct V as [|x V]; [cbn; eauto|]. cbn [rounds]. set (LV := ord (S fuel) (filter (leaf E) (x :: V))).
    pose proof (HO (S fuel) (filter (leaf E) (x :: V))) as P. fold LV in P. pose proof (inv_nodup _ _ _ _ I) as N.
    assert (NL : LV <> []).
    { intros Q. rewrite Q in P. apply Permutation_nil in P. revert P. apply has_leaf; [discriminate| |].
      - apply Forall_forall. intros [a b'] J. apply (i_E _ _ _ _ I) in J. split; apply J.
      - intros a W. apply (HA a). revert W. apply way_mono. intros [a' b'] J. apply (i_E _ _ _ _ I) in J. apply J. }
    pose proof (round_spec LV (x :: V) E m b I) as R. destruct (round _ _ _ _ _ _ _) as [[[[V' E'] m'] b']|].
    + destruct R as [I' ->].
      * eapply Permutation_NoDup; [symmetry; exact P|]. apply NoDup_filter. exact (nodup_app_l _ _ N).
      * intros y Y. apply (Permutation_in _ P) in Y. apply filter_In in Y. apply Y.
      * apply Forall_forall. intros y Y r RR. apply (Permutation_in _ P) in Y. apply filter_In in Y. destruct Y as [Y LE]. assert (J : In (y, r) E0) by (apply H0, RR). rewrite Forall_forall in HV. destruct (HV _ J) as [_ K]. cbn in K.
        apply (Permutation_in _ (Permutation_sym (i_perm _ _ _ _ I))), in_app_or in K. destruct K as [K|K]; [|exact K]. exfalso. rewrite leaf_spec in LE. apply (LE r), (i_E _ _ _ _ I). auto.
      * apply IH; [|exact I']. pose proof (Permutation_length (i_perm _ _ _ _ I)) as A1. pose proof (Permutation_length (i_perm _ _ _ _ I')) as A2. rewrite !app_length in *. assert (0 < length LV) by (destruct LV; [contradiction|cbn; lia]). lia.
    + apply R.
      * eapply Permutation_NoDup; [symmetry; exact P|]. apply NoDup_filter. exact (nodup_app_l _ _ N).
      * intros y Y. apply (Permutation_in _ P) in Y. apply filter_In in Y. apply Y.
      * apply Forall_forall. intros y Y r RR. apply (Permutation_in _ P) in Y. apply filter_In in Y. destruct Y as [Y LE]. assert (J : In (y, r) E0) by (apply H0, RR). rewrite Forall_forall in HV. destruct (HV _ J) as [_ K]. cbn in K.
        apply (Permutation_in _ (Permutation_sym (i_perm _ _ _ _ I))), in_app_or in K. destruct K as [K|K]; [|exact K]. exfalso. rewrite leaf_spec in LE. apply (LE r), (i_E _ _ _ _ I). auto.
Qed.
Lemma inv_start : inv (ids c) E0 m0 [].
Proof.
  constructor.
  - rewrite app_nil_r. reflexivity.
  - intros a b. split; [|intros H; apply H]. intros I. split; [exact I|]. rewrite Forall_forall in HV. exact (HV _ I).
  - intros a v [].
  - reflexivity.
  - intros b1 a b2 Q. destruct b1; discriminate Q.
Qed.
End LOOP.

(** The edges *)
Lemma in_dedup x l : In x (dedup l) <-> In x l.
Proof. induction l as [|y l IH]; [tauto|]. cbn [dedup]. destruct (mem y l) eqn:M; cbn [In]; rewrite IH; [|tauto]. apply mem_spec in M. split; [auto|intros [<-|H]; auto]. Qed.
Lemma dedup_nodup l : NoDup (dedup l).
Proof. induction l as [|y l IH]; [constructor|]. cbn [dedup]. destruct (mem y l) eqn:M; [exact IH|]. apply mem_false in M. constructor; [rewrite in_dedup; exact M|exact IH]. Qed.
Lemma in_edges_of n a b : In (a, b) (edges_of n) <-> a = fst n /\ In b (refs (snd n)).
Proof.
  destruct n as [x v]. unfold edges_of. cbn [fst snd]. destruct v as [|main aux|rs]; cbn [refs].
  - split; [intros []|intros [_ []]].
  - rewrite in_map_iff. split; [intros (y & Q & I); injection Q as <- <-; auto|intros [-> I]; exists b; auto].
  - rewrite in_map_iff. split; [intros (y & Q & I); injection Q as <- <-; rewrite in_dedup in I; auto|intros [-> I]; exists b; rewrite in_dedup; auto].
Qed.
Lemma in_edges c es a b : Permutation es (flat_map edges_of (nodes c)) -> (In (a, b) (filter nonempty es) <-> refers c a b).
Proof.
  intros P. rewrite filter_In. unfold nonempty. cbn [snd]. rewrite negb_true_iff, String.eqb_neq. unfold refers. split.
  - intros [I D]. apply (Permutation_in _ P), in_flat_map in I. destruct I as ([x v] & J & I). apply in_edges_of in I. cbn in I. destruct I as [-> I]. eauto.
  - intros (v & J & I & D). split; [|exact D]. apply (Permutation_in _ (Permutation_sym P)), in_flat_map. exists (a, v). split; [exact J|]. apply in_edges_of. auto.
Qed.
Lemma filter_pair a l : filter nonempty (map (pair a) l) = map (pair a) (filter (fun x => negb (String.eqb x "")) l).
Proof. induction l as [|x l IH]; [reflexivity|]. cbn [map filter]. change (nonempty (a, x)) with (negb (String.eqb x "")). destruct (negb (String.eqb x "")); cbn [map]; rewrite IH; reflexivity. Qed.
Lemma nodup_app_r {A} (l1 l2 : list A) : NoDup (l1 ++ l2) -> NoDup l2.
Proof. induction l1 as [|a l1 IH]; intros N; [exact N|]. inversion N; auto. Qed.
Lemma map_pair_nodup (a : string) (l : list string) : NoDup (map (pair a) l) <-> NoDup l.
Proof. split; [apply NoDup_map_inv|]. induction 1 as [|x l H N IH]; constructor; [|exact IH]. intros I. apply H. apply in_map_iff in I. destruct I as (y & Q & I). injection Q as ->. exact I. Qed.
Lemma once_sound ns g main aux : NoDup (filter nonempty (flat_map edges_of ns)) -> In (g, VGroup main aux) ns -> NoDup (filter (fun x => negb (String.eqb x "")) (main ++ aux)).
Proof.
  intros N I. apply in_split in I. destruct I as (l1 & l2 & ->). rewrite flat_map_app, filter_app in N. apply nodup_app_r in N. cbn [flat_map] in N. rewrite filter_app in N. apply nodup_app_l in N. unfold edges_of in N. cbn [fst snd] in N. rewrite filter_pair in N. apply map_pair_nodup in N. exact N.
Qed.
Lemma nodup_app_intro {A} (l1 l2 : list A) : NoDup l1 -> NoDup l2 -> (forall x, In x l1 -> ~ In x l2) -> NoDup (l1 ++ l2).
Proof.
  induction 1 as [|x l1 H N IH]; intros N2 D; [exact N2|]. cbn. constructor; [|apply IH; [exact N2|intros y Y; apply D; right; exact Y]]. intros I. apply in_app_or in I. destruct I as [I|I]; [auto|]. exact (D x (or_introl eq_refl) I).
Qed.
Lemma once_complete ns : NoDup (map fst ns) -> (forall g main aux, In (g, VGroup main aux) ns -> NoDup (filter (fun x => negb (String.eqb x "")) (main ++ aux))) -> NoDup (filter nonempty (flat_map edges_of ns)).
Proof.
  induction ns as [|[a v] ns IH]; intros N G; [constructor|]. cbn in N. inversion N as [|? ? N1 N2]; subst. cbn [flat_map]. rewrite filter_app. apply nodup_app_intro.
  - unfold edges_of. cbn [fst snd]. destruct v as [|main aux|rs]; [constructor| |]; rewrite filter_pair; apply map_pair_nodup; [apply (G a); left; reflexivity|]. apply NoDup_filter, dedup_nodup.
  - apply IH; [exact N2|]. intros g main aux I. apply (G g). right. exact I.
  - intros [x y] I J. apply filter_In in I, J. destruct I as [I _], J as [J _]. apply in_edges_of in I. cbn in I. destruct I as [-> _]. apply in_flat_map in J. destruct J as ([z w] & J & K). apply in_edges_of in K. cbn in K. destruct K as [-> _]. apply N1. apply (in_map fst) in J. exact J.
Qed.
Lemma in_group c g main aux : In (g, VGroup main aux) (nodes c) <-> In (g, (main, aux)) (c_groups c).
Proof.
  unfold nodes. rewrite !in_app_iff, !in_map_iff. split.
  - intros [(x & Q & _)|[([x [y z]] & Q & I)|([x y] & Q & _)]]; try discriminate Q. cbn in Q. injection Q as <- <- <-. exact I.
  - intros I. right. left. exists (g, (main, aux)). auto.
Qed.
Lemma perm_filter {A} (f : A -> bool) l l' : Permutation l l' -> Permutation (filter f l) (filter f l').
Proof. induction 1; cbn; [reflexivity|destruct (f x); [apply perm_skip|]; assumption|destruct (f x), (f y); try reflexivity; apply perm_swap|etransitivity; eassumption]. Qed.
Lemma way_refers c E a b : (forall a b, In (a, b) E <-> refers c a b) -> (way E a b <-> clos_trans _ (refers c) a b).
Proof. intros H. split; (induction 1 as [x y S|x y z _ I1 _ I2]; [apply t_step, H, S|exact (t_trans _ _ _ _ _ I1 I2)]). Qed.

(** Listeners *)
Lemma listeners_none l m : listeners l m = None <-> exists i r, In (i, false, r) l /\ lookup r m = None.
Proof.
  induction l as [|[[i ad] r] l IH]; cbn [listeners]; [split; [discriminate|intros (i & r & [] & _)]|]. destruct (lookup r m) as [o|] eqn:L.
  - destruct (listeners l m) as [ls|].
    + split; [discriminate|]. intros (i' & r' & [Q|I] & N); [congruence|]. assert (X : Some ls = None) by (apply IH; eauto). discriminate X.
    + split; [|reflexivity]. intros _. destruct (proj1 IH eq_refl) as (i' & r' & I & N). exists i', r'. split; [right; exact I|exact N].
  - destruct ad.
    + destruct (listeners l m) as [ls|].
      * split; [discriminate|]. intros (i' & r' & [Q|I] & N); [congruence|]. assert (X : Some ls = None) by (apply IH; eauto). discriminate X.
      * split; [|reflexivity]. intros _. destruct (proj1 IH eq_refl) as (i' & r' & I & N). exists i', r'. split; [right; exact I|exact N].
    + split; [|reflexivity]. intros _. exists i, r. split; [left; reflexivity|exact L].
Qed.
Lemma listeners_some l m : forall ls, listeners l m = Some ls -> Forall2 (fun x y => fst y = fst (fst x) /\ snd y = lookup (snd x) m /\ (snd (fst x) = false -> snd y <> None)) l ls.
Proof.
  induction l as [|[[i ad] r] l IH]; intros ls H; cbn [listeners] in H; [injection H as <-; constructor|].
  destruct (lookup r m) as [o|] eqn:L, ad; try discriminate H; (destruct (listeners l m) as [ls'|]; [|discriminate H]); injection H as <-; (constructor; [cbn; rewrite L; repeat split; congruence|apply IH; reflexivity]).
Qed.

Section TOP.
Variable build : string -> bool.
Variable ord : nat -> list string -> list string.
Variable c : config.
Variable es : list edge.
Hypothesis HE : ~ In ""%string (ids c).
Hypothesis HO : any_order ord.
Hypothesis HP : Permutation es (flat_map edges_of (nodes c)).

Definition boot_map : list (string * obj) := match c_boot c with Some _ => [("bootstrap-resolver"%string, Obj "bootstrap-resolver" [] [])] | None => [] end.
Lemma boot_lookup r : lookup r boot_map <> None <-> r = "bootstrap-resolver"%string /\ c_boot c <> None.
Proof.
  unfold boot_map. destruct (c_boot c); cbn [lookup].
  - destruct (String.eqb_spec "bootstrap-resolver" r) as [<-|D]; split; [intros _; split; [reflexivity|discriminate]|discriminate|congruence|intros [Q _]; congruence].
  - split; [congruence|intros [_ Q]; congruence].
Qed.
Record ok (E : list edge) : Prop := { ok_in : forall a b, In (a, b) E <-> refers c a b; ok_V : Forall (in_V (ids c)) E; ok_A : acyclic E }.

(** The state after the graph has been built *)
Lemma graph_sound V E : addVertices (nodes c) [] = Some V -> addEdges V es [] = Some E ->
  V = ids c /\ NoDup (ids c) /\ ok E /\ NoDup (filter nonempty es).
Proof.
  intros AV AE. apply addV_sound in AV; [|constructor]. cbn [app] in AV. destruct AV as [-> N]. apply addE_sound in AE; [|intros x W; induction W as [x y []|]; assumption|constructor|constructor].
  destruct AE as (A & NE & F & P). rewrite app_nil_r in P. split; [reflexivity|]. split; [exact N|]. split; [|eapply Permutation_NoDup; [exact P|exact NE]]. constructor; [|exact F|exact A]. intros a b. rewrite <- (in_edges c es a b HP). split; intros I; [exact (Permutation_in _ P I)|exact (Permutation_in _ (Permutation_sym P) I)].
Qed.
Lemma start_sound m built ls : start build ord c es = Started m built ls ->
  valid build c /\ wired c m /\ Permutation built (ids c) /\ (forall b1 a b2, built = b1 ++ a :: b2 -> forall r, refers c a r -> In r b1) /\
  listeners (c_listeners c) m = Some ls /\ (forall r, ~ In r (ids c) -> lookup r m = lookup r boot_map).
Proof.
  unfold start. intros H. destruct (c_boot c) as [[|]|] eqn:B; [|discriminate H|]; fold boot_map in H.
  all: destruct (addVertices (nodes c) []) as [V|] eqn:AV; [|discriminate H]; destruct (addEdges V es []) as [E|] eqn:AE; [|discriminate H];
    destruct (graph_sound V E AV AE) as (-> & N & [K1 K2 K3] & NE).
  all: pose proof (rounds_spec build c E boot_map N HE K1 K2 K3) as R.
  all: assert (L0 : lookup "" boot_map = None) by (unfold boot_map; rewrite B; reflexivity); specialize (R L0 ord HO (length (ids c)) (ids c) E boot_map [] (le_n _) (inv_start build c E boot_map K2)).
  all: unfold boot_map at 1 in R; rewrite B in R; destruct (rounds _ _ _ _ _ _ _ _) as [[[m' b']|]|]; try discriminate H; destruct (listeners (c_listeners c) m') as [ls'|] eqn:LS; [|discriminate H]; injection H as <- <- <-; destruct R as [E' I].
  all: assert (P : Permutation b' (ids c)) by (rewrite <- (i_perm _ _ _ _ _ _ _ _ I); reflexivity).
  all: assert (G : forall a v, In (a, v) (nodes c) -> wired_in m' a v /\ good build a v) by (intros a v J; apply (i_built _ _ _ _ _ _ _ _ I); [|exact J]; apply (Permutation_in _ (Permutation_sym P)); apply (in_map fst) in J; exact J).
  all: assert (KK : forall r, ~ In r (ids c) -> lookup r m' = lookup r boot_map) by (intros r J; apply (i_keys _ _ _ _ _ _ _ _ I); intros JJ; apply J, (Permutation_in _ P), JJ).
  all: split; [|split; [|split; [exact P|split; [exact (i_order _ _ _ _ _ _ _ _ I)|split; [exact LS|exact KK]]]]]; [|intros a v J; exact (proj1 (G a v J))].
  all: constructor;
    [exact N
    |intros a b J; apply K1 in J; rewrite Forall_forall in K2; exact (proj2 (K2 _ J))
    |intros a v J; exact (proj2 (proj2 (G a v J)))
    |intros a W; apply (K3 a); apply (way_refers c E); assumption
    |intros g main aux J; apply in_group in J; apply (once_sound (nodes c) g main aux); [|exact J]; eapply Permutation_NoDup; [apply perm_filter, HP|exact NE]
    |intros a J; destruct (in_node c a J) as [v JJ]; exact (proj1 (proj2 (G a v JJ)))
    |congruence
    |intros l r J; destruct (in_dec string_dec r (ids c)) as [D|D]; [left; exact D|right; apply boot_lookup; rewrite <- (KK r D); intros NN; assert (X : listeners (c_listeners c) m' = None) by (apply listeners_none; eauto); congruence]].
Qed.
Lemma start_complete : valid build c -> exists m built ls, start build ord c es = Started m built ls.
Proof.
  intros [V1 V2 V3 V4 V5 V6 V7 V8]. pose proof (addV_complete (nodes c) [] V1) as AV. cbn [app] in AV. fold (ids c) in AV.
  assert (F : Forall (in_V (ids c)) (filter nonempty es)).
  { apply Forall_forall. intros [a b] J. apply (in_edges c es a b HP) in J. split; cbn; [destruct J as (v & J & _); apply (in_map fst) in J; exact J|exact (V2 a b J)]. }
  assert (NN : NoDup (filter nonempty es)).
  { eapply Permutation_NoDup; [apply perm_filter, Permutation_sym, HP|]. apply once_complete; [exact V1|]. intros g main aux J. apply in_group in J. exact (V5 g main aux J). }
  assert (AC : acyclic (filter nonempty es)) by (intros a W; apply (V4 a); apply (way_refers c (filter nonempty es)); [intros x y; apply in_edges, HP|exact W]).
  assert (AE : addEdges (ids c) es [] <> None) by (apply addE_complete; try rewrite app_nil_r; assumption).
  unfold start. destruct (addEdges (ids c) es []) as [E|] eqn:AE'; [|contradiction]. clear AE.
  destruct (graph_sound _ E AV AE') as (_ & N & [K1 K2 K3] & _).
  pose proof (rounds_spec build c E boot_map N HE K1 K2 K3) as R.
  assert (L0 : lookup "" boot_map = None) by (unfold boot_map; destruct (c_boot c); reflexivity). specialize (R L0 ord HO (length (ids c)) (ids c) E boot_map [] (le_n _) (inv_start build c E boot_map K2)).
  unfold boot_map at 1 in R. rewrite AV, AE'.
  assert (X : exists m built, rounds build ord (length (ids c)) (nodes c) (ids c) E boot_map [] = Some (Some (m, built)) /\ listeners (c_listeners c) m <> None).
  { unfold boot_map at 1. destruct (rounds _ _ _ _ _ _ _ _) as [[[m b]|]|]; [|exfalso|contradiction].
    - exists m, b. split; [reflexivity|]. destruct R as [E' I]. intros Q. apply listeners_none in Q. destruct Q as (i & r & J & Q).
      assert (P : Permutation b (ids c)) by (rewrite <- (i_perm _ _ _ _ _ _ _ _ I); reflexivity). destruct (in_dec string_dec r (ids c)) as [D|D].
      + destruct (in_node c r D) as [v JJ]. destruct (i_built _ _ _ _ _ _ _ _ I r v) as ((mn & ax & QQ & _) & _); [|exact JJ|congruence]. exact (Permutation_in _ (Permutation_sym P) D).
      + destruct (V8 i r J) as [Z|Z]; [contradiction|]. apply boot_lookup in Z. apply Z. rewrite <- (i_keys _ _ _ _ _ _ _ _ I); [exact Q|]. intros JJ. apply D, (Permutation_in _ P), JJ.
    - destruct R as (a & v & J & [Q|Q]); [|exact (V3 a v J Q)]. rewrite V6 in Q; [discriminate Q|]. apply (in_map fst) in J. exact J. }
  destruct X as (m & b & X & Y). unfold boot_map in X. destruct (c_boot c) as [[|]|]; [|contradiction|]; rewrite X; (destruct (listeners (c_listeners c) m) as [ls|]; [eauto|contradiction]).
Qed.
Lemma start_ends : start build ord c es <> Hangs.
Proof.
  unfold start. intros H. assert (L0 : lookup "" boot_map = None) by (unfold boot_map; destruct (c_boot c); reflexivity).
  destruct (addVertices (nodes c) []) as [V|] eqn:AV; [|destruct (c_boot c) as [[|]|]; discriminate H]. destruct (addEdges V es []) as [E|] eqn:AE; [|destruct (c_boot c) as [[|]|]; discriminate H].
  destruct (graph_sound V E AV AE) as (-> & N & [K1 K2 K3] & NE). pose proof (rounds_spec build c E boot_map N HE K1 K2 K3 L0 ord HO (length (ids c)) (ids c) E boot_map [] (le_n _) (inv_start build c E boot_map K2)) as R.
  unfold boot_map at 1 in R. destruct (c_boot c) as [[|]|]; [|discriminate H|]; (destruct (rounds _ _ _ _ _ _ _ _) as [[[m b]|]|]; [destruct (listeners (c_listeners c) m); discriminate H|discriminate H|exact R]).
Qed.
End TOP.
Section FINAL.
Variable build : string -> bool.
Variable ord : nat -> list string -> list string.
Variable c : config.
Variable es : list edge.
Hypothesis HE : ~ In ""%string (ids c).
Hypothesis HO : any_order ord.
Hypothesis HP : Permutation es (flat_map edges_of (nodes c)).
Lemma starts_iff : (exists m built ls, start build ord c es = Started m built ls) <-> valid build c.
Proof. split; [intros (m & b & ls & H); exact (proj1 (start_sound build ord c es HE HO HP m b ls H))|exact (start_complete build ord c es HE HO HP)]. Qed.
Lemma error_iff : start build ord c es = Error <-> ~ valid build c.
Proof.
  pose proof (start_ends build ord c es HE HO HP) as N. pose proof starts_iff as I. destruct (start build ord c es) as [| |m b ls]; [|contradiction|].
  - split; [|reflexivity]. intros _ V. apply I in V. destruct V as (m & b & ls & Q). discriminate Q.
  - split; [discriminate|]. intros NV. exfalso. apply NV, I. eauto.
Qed.
Lemma started_wired m built ls : start build ord c es = Started m built ls -> wired c m.
Proof. intros H. exact (proj1 (proj2 (start_sound build ord c es HE HO HP m built ls H))). Qed.
Lemma started_order m built ls : start build ord c es = Started m built ls -> NoDup built /\ (forall a, In a built <-> In a (ids c)) /\ forall b1 a b2, built = b1 ++ a :: b2 -> forall r, refers c a r -> In r b1.
Proof.
  intros H. destruct (start_sound build ord c es HE HO HP m built ls H) as (V & _ & P & O & _). split; [exact (Permutation_NoDup (Permutation_sym P) (v_ids _ _ V))|]. split; [|exact O]. intros a. split; intros I; [exact (Permutation_in _ P I)|exact (Permutation_in _ (Permutation_sym P) I)].
Qed.
Lemma started_listeners m built ls : start build ord c es = Started m built ls -> Forall2 (fun l x => fst x = fst (fst l) /\ snd x = lookup (snd l) m /\ (snd (fst l) = false -> snd x <> None)) (c_listeners c) ls.
Proof. intros H. destruct (start_sound build ord c es HE HO HP m built ls H) as (_ & _ & _ & _ & L & _). exact (listeners_some _ _ _ L). Qed.
End FINAL.
Lemma any_result (build : string -> bool) c es1 es2 ord1 ord2 : ~ In ""%string (ids c) -> any_order ord1 -> any_order ord2 -> Permutation es1 (flat_map edges_of (nodes c)) -> Permutation es2 (flat_map edges_of (nodes c)) ->
  forall m1 b1 ls1, start build ord1 c es1 = Started m1 b1 ls1 -> exists m2 b2, start build ord2 c es2 = Started m2 b2 ls1 /\ forall a, lookup a m1 = lookup a m2.
Proof.
  intros HE O1 O2 P1 P2 m1 b1 ls1 H. destruct (start_sound build ord1 c es1 HE O1 P1 _ _ _ H) as (V & W1 & _ & Or1 & L1 & K1). destruct (start_complete build ord2 c es2 HE O2 P2 V) as (m2 & b2 & ls2 & H2). destruct (start_sound build ord2 c es2 HE O2 P2 _ _ _ H2) as (_ & W2 & PB & Or2 & L2 & K2).
  assert (Q : forall n a, In a (firstn n b2) -> lookup a m1 = lookup a m2).
  { induction n as [|n IH]; intros a I; [destruct I|]. destruct (nth_error b2 n) as [x|] eqn:NX.
    - destruct (nth_error_split _ _ NX) as (l1 & l2 & Q & LN). rewrite Q in I. replace (S n) with (length l1 + 1) in I by lia. rewrite firstn_app_2 in I. cbn [firstn] in I. apply in_app_or in I.
      assert (FN : firstn n b2 = l1) by (rewrite Q, <- LN, firstn_app, firstn_all, Nat.sub_diag; cbn; apply app_nil_r). rewrite FN in IH. destruct I as [I|[<-|[]]]; [exact (IH a I)|].
      assert (IX : In x (ids c)) by (apply (Permutation_in _ PB); rewrite Q; apply in_or_app; right; left; reflexivity). destruct (in_node c x IX) as [v JV].
      destruct (W1 x v JV) as (mn1 & ax1 & A1 & A2 & A3), (W2 x v JV) as (mn2 & ax2 & B1 & B2 & B3). rewrite A1, B1. f_equal.
      assert (R : forall r, In r (refs v) -> r <> ""%string -> lookup r m1 = lookup r m2) by (intros r J D; apply IH, (Or2 l1 x l2 Q); exists v; auto).
      assert (E1 : mn1 = mn2).
      { assert (R' : forall r, In r (needed v) -> lookup r m1 = lookup r m2) by (intros r J; apply R; [apply needed_refs, J|]; intros ->; exact (v_needed _ _ V x v JV J)). revert R' A2 B2. generalize (needed v) as l. clear. intros l R A. revert mn2. induction A as [|r o l os Ho A IH]; intros mn2 B; inversion B as [|? o2 ? os2 Ho2 B']; subst; [reflexivity|]. f_equal; [rewrite R in Ho by (left; reflexivity); congruence|]. apply IH; [intros r' J; apply R; right; exact J|exact B']. }
      f_equal; [exact E1|]. assert (R' : forall r, In r (optional v) -> r <> ""%string -> lookup r m1 = lookup r m2) by (intros r J; apply R, optional_refs, J).
      revert R' A3 B3. generalize (optional v) as l. clear. intros l R A. revert ax2. induction A as [|r o l os Ho A IH]; intros ax2 B; inversion B as [|? o2 ? os2 Ho2 B']; subst; [reflexivity|]. f_equal; [|apply IH; [intros r' J; apply R; right; exact J|exact B']].
      destruct (String.eqb_spec r "") as [->|D]; [congruence|]. destruct Ho as (x & -> & X), Ho2 as (y & -> & Y). rewrite R in X by (auto; left; reflexivity). congruence.
    - apply nth_error_None in NX. rewrite firstn_all2 in I by lia. apply IH. rewrite firstn_all2 by lia. exact I. }
  assert (Q' : forall a, lookup a m1 = lookup a m2).
  { intros a. destruct (in_dec string_dec a (ids c)) as [D|D]; [|rewrite K1, K2 by exact D; reflexivity]. apply (Q (length b2)). rewrite firstn_all. exact (Permutation_in _ (Permutation_sym PB) D). }
  exists m2, b2. split; [|exact Q']. rewrite H2. f_equal. assert (X : forall l, listeners l m1 = listeners l m2) by (induction l as [|[[i ad] r] l IH]; [reflexivity|]; cbn [listeners]; rewrite Q', IH; reflexivity). rewrite X in L1. congruence.
Qed.
Local Open Scope string_scope.
Lemma twice_refused : exists c es, ~ In "" (ids c) /\ Permutation es (flat_map edges_of (nodes c)) /\ NoDup (ids c) /\
  (forall a b, refers c a b -> In b (ids c)) /\ (forall a b, refers c a b -> a = "list" /\ b = "up") /\
  forall build ord, any_order ord -> start build ord c es = Error.
Proof.
  exists (Config None ["up"] [("list", (["up"], [""; "up"; ""; ""]))] [] []), [("list", "up"); ("list", ""); ("list", "up"); ("list", ""); ("list", "")].
  assert (R : forall a b, refers (Config None ["up"] [("list", (["up"], [""; "up"; ""; ""]))] [] []) a b -> a = "list" /\ b = "up").
  { intros a b (v & [Q|[Q|[]]] & I & D); injection Q as <- <-; cbn in I; [destruct I|]. intuition congruence. }
  split; [cbn; intuition discriminate|]. split; [reflexivity|]. split; [repeat constructor; cbn; intuition discriminate|]. split; [|split; [exact R|reflexivity]].
  intros a b H. apply R in H. destruct H as [_ ->]. left. reflexivity.
Qed.
Lemma bootstrap_refused : forall build ord, any_order ord -> start build ord (Config (Some true) [] [("cache", (["bootstrap-resolver"], []))] [] []) [("cache", "bootstrap-resolver")] = Error.
Proof. reflexivity. Qed.
