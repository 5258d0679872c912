From Coq Require Import Permutation.
From Verif Require Import Base Bytes Dns Lua_model Lua_spec.
Local Open Scope nat_scope.

Section S.
Variable state : Type.
Variable exec : state -> msg -> client -> state * (string + lvalue * lvalue).
Variable size : nat.
Notation resolve_ := (resolve state exec size).
Notation resolves_ := (resolves state exec size).
Notation script_ := (script state).

Lemma resolve_error (s : script_) q ci st e : length (sc_stack _ s) + 3 <= size -> exec (sc_state _ s) q ci = (st, inl e) ->
  resolve_ s q ci = Some (Script _ st (sc_stack _ s), (None, Some e)).
Proof. intros L E. unfold resolve, Call. destruct (Nat.ltb_spec size (length (sc_stack _ s) + 3)); [lia|]. rewrite E. reflexivity. Qed.
Lemma resolve_values (s : script_) q ci st v1 v2 : length (sc_stack _ s) + 3 <= size -> exec (sc_state _ s) q ci = (st, inr (v1, v2)) ->
  exists stack r, resolve_ s q ci = Some (Script _ st stack, r) /\ verdict v1 v2 r /\
    (supported v2 -> stack = sc_stack _ s) /\ (v2 = LOther -> stack = v1 :: sc_stack _ s).
Proof.
  intros L E. unfold resolve, Call. destruct (Nat.ltb_spec size (length (sc_stack _ s) + 3)); [lia|]. rewrite E. unfold supported.
  destruct v2 as [|[m2|e2|]|s2|]; destruct v1 as [|[m1|e1|]|s1|]; cbn; eexists; eexists; (split; [reflexivity|]); split;
    try (constructor; fail); try (split; [intros; reflexivity|intros; try discriminate; reflexivity]); try (split; intros; [congruence|reflexivity]);
    try (apply V_bad; ((left; intros [K|[? K]]; discriminate) || (right; intros [K|[? K]]; discriminate))).
Qed.
Lemma resolve_total (s : script_) q ci : length (sc_stack _ s) + 3 <= size -> (forall st v1 v2, exec (sc_state _ s) q ci = (st, inr (v1, v2)) -> supported v2) ->
  exists st r, resolve_ s q ci = Some (Script _ st (sc_stack _ s), r) /\ st = fst (exec (sc_state _ s) q ci).
Proof.
  intros L S. destruct (exec (sc_state _ s) q ci) as [st [e|[v1 v2]]] eqn:E.
  - exists st, (None, Some e). split; [apply resolve_error; assumption|reflexivity].
  - destruct (resolve_values s q ci st v1 v2 L E) as (stack & r & R & _ & K & _). rewrite (K (S _ _ _ eq_refl)) in R. exists st, r. split; [exact R|reflexivity].
Qed.
Lemma resolves_total l : forall (s : script_), length (sc_stack _ s) + 3 <= size -> (forall st q ci st' v1 v2, exec st q ci = (st', inr (v1, v2)) -> supported v2) ->
  exists st rs, resolves_ s l = Some (Script _ st (sc_stack _ s), rs) /\ length rs = length l.
Proof.
  induction l as [|(q, ci) l IH]; intros s L S.
  - exists (sc_state _ s), []. destruct s. split; reflexivity.
  - destruct (resolve_total s q ci L (fun st v1 v2 => S _ q ci st v1 v2)) as (st & r & R & _). cbn [resolves]. rewrite R.
    destruct (IH (Script _ st (sc_stack _ s)) L S) as (st' & rs & R' & Le). rewrite R'. exists st', (r :: rs). cbn. auto.
Qed.
End S.

Lemma passthrough size (up : msg -> client -> lresult) (s : script unit) q ci : length (sc_stack _ s) + 3 <= size ->
  resolve unit (fun st q ci => (st, inr (resolverResolve up q ci))) size s q ci = Some (s, up q ci).
Proof.
  intros L. unfold resolve, Call. destruct (Nat.ltb_spec size (length (sc_stack _ s) + 3)); [lia|]. unfold resolverResolve.
  destruct s as [st stack]. destruct (up q ci) as [[m|] [e|]]; reflexivity.
Qed.
Lemma leak size q ci : exists l, resolves unit (fun _ _ _ => (tt, inr (LNil, LOther))) size (Script _ tt []) l = None /\ Forall (fun x => x = (q, ci)) l.
Proof.
  assert (H : forall n stack, size < length stack + 3 + n -> exists l, resolves unit (fun _ _ _ => (tt, inr (LNil, LOther))) size (Script _ tt stack) l = None /\ Forall (fun x => x = (q, ci)) l).
  { induction n as [|n IH]; intros stack L.
    - exists [(q, ci)]. split; [|constructor; auto]. cbn [resolves resolve]. unfold resolve, Call. cbn [sc_stack]. destruct (Nat.ltb_spec size (length stack + 3)); [reflexivity|lia].
    - destruct (IH (LNil :: stack)) as (l & E & F); [cbn; lia|]. exists ((q, ci) :: l). split; [|constructor; auto].
      cbn [resolves]. unfold resolve, Call. cbn [sc_stack sc_state]. destruct (Nat.ltb_spec size (length stack + 3)); [reflexivity|]. cbn. rewrite E. reflexivity. }
  apply (H (S size) []). cbn. lia.
Qed.

(** ** Pool *)
Definition inv (n : nat) (p : pool) : Prop :=
  p_cap p = n /\ NoDup (map fst (p_used p)) /\ (p_closed p = false -> p_panic p = false /\ p_shut p = []) /\
  Permutation (p_idle p ++ p_shut p ++ map snd (p_used p)) (seq 0 n) /\ (p_closed p = true -> p_idle p = []).
Lemma inv_new o : inv (concurrency o) (newPool o).
Proof. unfold inv, newPool. cbn. repeat split; try constructor; try discriminate. rewrite app_nil_r. apply Permutation_refl. Qed.
Lemma find_split r u s : NoDup (map fst u) -> find (fun x : nat * nat => Nat.eqb (fst x) r) u = Some s ->
  fst s = r /\ Permutation (map snd u) (snd s :: map snd (filter (fun x => negb (Nat.eqb (fst x) r)) u)) /\ NoDup (map fst (filter (fun x => negb (Nat.eqb (fst x) r)) u)) /\
  ~ In r (map fst (filter (fun x => negb (Nat.eqb (fst x) r)) u)).
Proof.
  assert (F : forall v, ~ In r (map fst v) -> filter (fun x : nat * nat => negb (Nat.eqb (fst x) r)) v = v).
  { induction v as [|(a, b) v IH]; cbn; intros N; [reflexivity|]. destruct (Nat.eqb_spec a r); [exfalso; tauto|]. cbn. rewrite IH by tauto. reflexivity. }
  induction u as [|(a, b) u IH]; cbn; intros N H; [discriminate|]. inversion N as [|? ? N1 N2]; subst. destruct (Nat.eqb_spec a r) as [->|D].
  - injection H as <-. cbn [fst snd negb]. rewrite (F u N1). auto.
  - destruct (IH N2 H) as (A & B & C & E). cbn [negb map fst snd]. split; [exact A|]. split.
    + eapply perm_trans; [apply perm_skip; exact B|apply perm_swap].
    + split.
      * constructor; [|exact C]. intros I. apply N1. clear - I. induction u as [|(x, y) u IHu]; cbn in *; [exact I|]. destruct (Nat.eqb x r); cbn in *; tauto.
      * cbn. intros [K|K]; [congruence|exact (E K)].
Qed.
Lemma inv_len n p : inv n p -> length (p_idle p) + length (p_shut p) + length (p_used p) = n.
Proof. intros (_ & _ & _ & P & _). apply Permutation_length in P. rewrite !app_length, map_length, seq_length in P. lia. Qed.
Lemma inv_step n p a p' : inv n p -> (forall r, a = Take r -> ~ In r (map fst (p_used p))) -> pstep p a = Some p' -> inv n p'.
Proof.
  intros (C & N & CL & P & CI) F S. unfold pstep in S. destruct (p_panic p) eqn:PA; [discriminate|]. destruct a as [r|r|].
  - destruct (p_idle p) as [|s l] eqn:I.
    + destruct (p_closed p) eqn:K; [|discriminate]. injection S as <-. unfold inv. cbn. repeat split; try assumption; try discriminate. 
    + injection S as <-. unfold inv. cbn. split; [exact C|]. split; [constructor; [apply F; reflexivity|exact N]|]. split; [intros H; split; [reflexivity|apply CL; exact H]|]. split.
      * eapply perm_trans; [|exact P]. cbn. apply Permutation_sym. eapply perm_trans; [apply Permutation_middle|]. apply Permutation_app_head. apply Permutation_middle.
      * intros H. specialize (CI H). discriminate.
  - destruct (find _ _) as [[r' s]|] eqn:E; [|discriminate]. destruct (find_split r (p_used p) (r', s) N E) as (A & B & D & G). cbn [fst snd] in A, B. subst r'.
    destruct (p_closed p) eqn:K.
    + injection S as <-. unfold inv. cbn. repeat split; try assumption; discriminate.
    + destruct (Nat.ltb _ _); [|discriminate]. injection S as <-. unfold inv. cbn. destruct (CL eq_refl) as (_ & SH). repeat split; try assumption; try discriminate.
      rewrite SH in *. cbn [app] in *. eapply perm_trans; [|exact P]. rewrite <- app_assoc. apply Permutation_app_head. cbn. apply Permutation_sym. exact B.
  - destruct (p_closed p) eqn:K.
    + injection S as <-. unfold inv. cbn. repeat split; try assumption; try discriminate. 
    + injection S as <-. unfold inv. cbn. repeat split; try assumption; try discriminate.
      destruct (CL eq_refl) as (_ & SH). rewrite SH in *. cbn [app] in *. exact P.
Qed.
Lemma inv_runs n l : forall p p', inv n p -> pruns p l = Some p' -> inv n p'.
Proof.
  induction l as [|a l IH]; intros p p' I R; cbn in R; [injection R as <-; exact I|].
  destruct a as [r|r|].
  - destruct (existsb _ _) eqn:X; [discriminate|]. destruct (pstep p (Take r)) as [q|] eqn:S; [|discriminate]. apply (IH q p'); [|exact R].
    apply (inv_step n p (Take r) q I); [|exact S]. intros r' E. injection E as <-. intros H. apply in_map_iff in H. destruct H as (x & Ex & Hx).
    assert (existsb (fun x => Nat.eqb (fst x) r) (p_used p) = true) by (apply existsb_exists; exists x; split; [exact Hx|apply Nat.eqb_eq; exact Ex]). congruence.
  - destruct (pstep p (Give r)) as [q|] eqn:S; [|discriminate]. apply (IH q p'); [|exact R]. apply (inv_step n p (Give r) q I); [discriminate|exact S].
  - destruct (pstep p Close) as [q|] eqn:S; [|discriminate]. apply (IH q p'); [|exact R]. apply (inv_step n p Close q I); [discriminate|exact S].
Qed.
Lemma pool_exclusive o l p : pruns (newPool o) l = Some p ->
  NoDup (map snd (p_used p)) /\ (forall s, In s (map snd (p_used p)) -> ~ In s (p_idle p) /\ ~ In s (p_shut p) /\ s < concurrency o) /\
  length (p_used p) <= concurrency o.
Proof.
  intros R. pose proof (inv_runs _ l _ _ (inv_new o) R) as I. pose proof (inv_len _ _ I) as L. destruct I as (C & N & CL & P & CI).
  assert (ND : NoDup (p_idle p ++ p_shut p ++ map snd (p_used p))) by (eapply Permutation_NoDup; [apply Permutation_sym; exact P|apply seq_NoDup]).
  assert (U : NoDup (map snd (p_used p))).
  { clear - ND. induction (p_idle p) as [|x l IH]; cbn in ND; [|inversion ND; auto]. induction (p_shut p) as [|x l IH]; cbn in ND; [exact ND|inversion ND; auto]. }
  split; [exact U|]. split; [|lia]. intros s H.
  assert (D : forall (x : list nat) y, NoDup (x ++ y) -> In s y -> ~ In s x).
  { clear. induction x as [|a x IH]; cbn; intros y ND Y; [tauto|]. inversion ND as [|? ? N1 N2]; subst. intros [->|X]; [apply N1; apply in_or_app; auto|exact (IH y N2 Y X)]. }
  split; [apply (D _ _ ND); apply in_or_app; auto|]. split.
  - apply (D (p_shut p) (map snd (p_used p))); [|exact H]. clear - ND. induction (p_idle p) as [|x l IH]; cbn in ND; [exact ND|inversion ND; auto].
  - assert (In s (seq 0 (concurrency o))) as Q by (eapply Permutation_in; [exact P|]; apply in_or_app; right; apply in_or_app; auto). apply in_seq in Q. lia.
Qed.
Lemma pool_returns o l p r s : pruns (newPool o) l = Some p -> p_closed p = false -> In (r, s) (p_used p) ->
  exists p', pstep p (Give r) = Some p' /\ p_panic p' = false /\ p_idle p' = p_idle p ++ [s] /\ ~ In r (map fst (p_used p')) /\
    (forall r' s', r' <> r -> In (r', s') (p_used p') <-> In (r', s') (p_used p)).
Proof.
  intros R CLO H. pose proof (inv_runs _ l _ _ (inv_new o) R) as I. pose proof (inv_len _ _ I) as L. destruct I as (C & N & CL & P & CI).
  destruct (CL CLO) as (PA & SH). unfold pstep. rewrite PA, CLO.
  destruct (find (fun x => Nat.eqb (fst x) r) (p_used p)) as [[r' s']|] eqn:F.
  - pose proof (find_split r _ _ N F) as (A & B & D & G). cbn in A. subst r'.
    assert (s' = s).
    { apply find_some in F. destruct F as (F & _). clear - N F H. induction (p_used p) as [|(a, b) u IH]; [contradiction|]. cbn in N. inversion N as [|? ? N1 N2]; subst.
      destruct F as [F|F], H as [H|H]; try congruence.
      - injection F as -> ->. exfalso. apply N1. apply in_map_iff. exists (r, s). auto.
      - injection H as -> ->. exfalso. apply N1. apply in_map_iff. exists (r, s'). auto.
      - auto. }
    subst s'. assert (0 < length (p_used p)) by (destruct (p_used p); [contradiction|cbn; lia]).
    destruct (Nat.ltb_spec (length (p_idle p)) (p_cap p)); [|lia]. eexists. split; [reflexivity|]. cbn. repeat split; auto.
    + intros K. apply filter_In in K. apply K.
    + intros K. apply filter_In. split; [exact K|]. cbn. destruct (Nat.eqb_spec r' r); [congruence|reflexivity].
  - exfalso. apply (find_none _ _ F) in H. cbn in H. rewrite Nat.eqb_refl in H. discriminate.
Qed.
Lemma pool_waits o l p r : pruns (newPool o) l = Some p -> p_closed p = false -> (pstep p (Take r) = None <-> length (p_used p) = concurrency o).
Proof.
  intros R CLO. pose proof (inv_runs _ l _ _ (inv_new o) R) as I. pose proof (inv_len _ _ I) as L. destruct I as (C & N & CL & P & CI).
  destruct (CL CLO) as (PA & SH). unfold pstep. rewrite PA, CLO, SH in *. cbn in L. destruct (p_idle p) as [|s idle]; cbn in L.
  - split; [intros _; lia|reflexivity].
  - split; [discriminate|lia].
Qed.
Lemma pool_close o : exists l p, pruns (newPool o) l = Some p /\ p_panic p = true.
Proof.
  exists [Take 0; Close; Give 0]. unfold newPool, concurrency. destruct o as [|o]; cbn; eexists; split; reflexivity.
Qed.
Lemma pool_close_ok o l p : pruns (newPool o) l = Some p -> p_closed p = false -> p_used p = [] ->
  exists p', pstep p Close = Some p' /\ p_panic p' = false /\ Permutation (p_shut p') (seq 0 (concurrency o)).
Proof.
  intros R CLO U. pose proof (inv_runs _ l _ _ (inv_new o) R) as (C & N & CL & P & CI). destruct (CL CLO) as (PA & SH). unfold pstep. rewrite PA, CLO.
  eexists. split; [reflexivity|]. cbn. split; [reflexivity|]. rewrite SH, U in *. cbn in *. rewrite app_nil_r in P. exact P.
Qed.

Lemma sandbox_ok provides n : In n (openSandboxedLibs provides) <->
  (In n (provides BaseLib) \/ In n (provides TabLib) \/ In n (provides StringLib) \/ In n (provides MathLib) \/ In n (provides CoroutineLib)) /\
  ~ In n ["dofile"; "loadfile"; "load"; "loadstring"; "module"; "require"]%string.
Proof.
  unfold openSandboxedLibs. rewrite filter_In. cbn [flat_map]. rewrite !in_app_iff. rewrite negb_true_iff.
  assert (E : forall l, existsb (String.eqb n) l = false <-> ~ In n l).
  { induction l as [|x l IH]; cbn; [tauto|]. rewrite orb_false_iff, IH. destruct (String.eqb_spec n x); intuition congruence. }
  rewrite E. cbn [In]. tauto.
Qed.

Lemma sized o n : pool_size o n -> n = concurrency o.
Proof. intros [A B]. unfold concurrency. destruct (Nat.eqb_spec o 0); auto. Qed.
Lemma sized_exclusive o n l p : pool_size o n -> pruns (newPool o) l = Some p ->
  NoDup (map snd (p_used p)) /\ (forall s, In s (map snd (p_used p)) -> ~ In s (p_idle p) /\ ~ In s (p_shut p) /\ s < n) /\ length (p_used p) <= n.
Proof. intros S. rewrite (sized o n S). apply pool_exclusive. Qed.
Lemma sized_waits o n l p r : pool_size o n -> pruns (newPool o) l = Some p -> p_closed p = false -> (pstep p (Take r) = None <-> length (p_used p) = n).
Proof. intros S. rewrite (sized o n S). apply pool_waits. Qed.
Lemma sized_close o n l p : pool_size o n -> pruns (newPool o) l = Some p -> p_closed p = false -> p_used p = [] ->
  exists p', pstep p Close = Some p' /\ p_panic p' = false /\ Permutation (p_shut p') (seq 0 n).
Proof. intros S. rewrite (sized o n S). apply pool_close_ok. Qed.
