(** Proofs about lookups through the bootstrap resolver. *)
From Verif Require Import Base Base_proofs Bytes Dns Modifiers_spec Listener_model Listener_spec Client_model Client_spec Client_proofs Pipeline_model Pipeline_spec Pipeline_proofs3 NetRes_model NetRes_spec.
From Coq Require Import Lia ZifyBool ZifyN ZifyNat.
Local Open Scope N_scope.

Section PROOFS.
Variable resolve : nat -> msg -> client -> result.
Variable unpack : bytes -> option msg.
Variable pack : msg -> option bytes.
Variable parse : bytes -> option ghead.
Notation gives := (gives resolve unpack). Notation fits := (fits pack). Notation response_to := (response_to parse). Notation round := (round resolve unpack pack parse).
Notation exchange := (exchange resolve unpack pack parse). Notation trip := (dnsPacketRoundTrip resolve unpack pack parse).

Lemma check_iff id q b h : parse b = Some h -> (checkResponse id q h = true <-> response_to id q b h).
Proof.
  intros P. unfold checkResponse, NetRes_spec.response_to. split.
  - intros C. apply andb_true_iff in C as [C C3]. apply andb_true_iff in C as [C1 C2]. apply N.eqb_eq in C2. repeat split; auto. destruct (g_questions h) as [|x l]; [discriminate|]. exists x, l.
    apply andb_true_iff in C3 as [C3 C5]. apply andb_true_iff in C3 as [C3 C4]. apply N.eqb_eq in C3, C4. apply equal_fold_true in C5. auto.
  - intros (_ & -> & -> & x & l & -> & -> & -> & E). rewrite !N.eqb_refl. apply equal_fold_true in E. now rewrite E.
Qed.
Lemma response_fun id q b h h' : response_to id q b h -> response_to id q b h' -> h = h'.
Proof. intros (A & _) (B & _). congruence. Qed.
Lemma gives_fun n p a a' : gives n p a -> gives n p a' -> a = a'.
Proof. intros (m & A & B) (m' & A' & B'). congruence. Qed.
Lemma fits_fun a b b' : fits a b -> fits a b' -> b = b'.
Proof. intros (A & _) (B & _). congruence. Qed.
Lemma read_iff a b : Read pack 1232 a = Some b <-> fits a b.
Proof. unfold Read, NetRes_spec.fits. destruct (pack a) as [c|]; [|intuition discriminate]. destruct (N.ltb_spec 1232 (N.of_nat (length c))); split; intros H'; try discriminate; try (injection H' as <-; split; [auto|lia]); destruct H' as [E L]; injection E as <-; [lia|auto]. Qed.

Lemma trip_spec n id q p : exists r h, snd (trip n id q p) = (r, h) /\
  (fst (trip n id q p) = match unpack p with Some m => [(m, local)] | None => [] end) /\
  match r, h with
  | Got b, Some h => exists a, gives n p a /\ fits a b /\ response_to id q b h
  | Failed, None => (forall a, ~ gives n p a) \/ exists a, gives n p a /\ forall b, ~ fits a b
  | Hang, None => exists a b, gives n p a /\ fits a b /\ forall h, ~ response_to id q b h
  | _, _ => False
  end.
Proof.
  unfold dnsPacketRoundTrip, Write. destruct (unpack p) as [m|] eqn:U; cbn [fst snd].
  - change (Client _ _ _ _) with local. destruct (resolve n m local) as [a| |e] eqn:R.
    + assert (gives n p a) as G by (exists m; auto). cbn [receive]. change bufsize with 1232. destruct (Read pack 1232 a) as [b|] eqn:RD.
      * apply read_iff in RD. destruct (parse b) as [h|] eqn:P.
        -- destruct (checkResponse id q h) eqn:C.
           ++ exists (Got b), (Some h). repeat split; auto. exists a. split; [auto|]. split; [auto|]. now apply check_iff.
           ++ exists Hang, None. repeat split; auto. exists a, b. split; [auto|]. split; [auto|]. intros h' H. assert (h' = h) as -> by (destruct H as (H & _); congruence). apply check_iff in H; auto. congruence.
        -- exists Hang, None. repeat split; auto. exists a, b. split; [auto|]. split; [auto|]. intros h' (H & _). congruence.
      * exists Failed, None. repeat split; auto. right. exists a. split; auto. intros b F. apply read_iff in F. congruence.
    + exists Failed, None. repeat split; auto. left. intros a (m' & A & B). congruence.
    + exists Failed, None. repeat split; auto. left. intros a (m' & A & B). congruence.
  - exists Failed, None. repeat split; auto. left. intros a (m' & A & B). congruence.
Qed.
Lemma round_fun n id q p r t r' t' : round n id q p r t -> round n id q p r' t' -> r = r' /\ t = t'.
Proof.
  intros A B. destruct A, B; auto;
    repeat match goal with
    | H : forall a, ~ gives _ _ a, G : gives _ _ ?a |- _ => destruct (H _ G)
    | G : gives _ _ ?a, G' : gives _ _ ?a' |- _ => first [constr_eq a a'; fail 1|pose proof (gives_fun _ _ _ _ G G'); subst a'] ; clear G'
    | H : forall b, ~ fits ?a b, G : fits ?a ?b |- _ => destruct (H _ G)
    | G : fits ?a ?b, G' : fits ?a ?b' |- _ => pose proof (fits_fun _ _ _ G G'); subst b'; clear G'
    | H : forall h, ~ response_to _ _ ?b h, G : response_to _ _ ?b ?h |- _ => destruct (H _ G)
    | G : response_to _ _ ?b ?h, G' : response_to _ _ ?b ?h' |- _ => pose proof (response_fun _ _ _ _ _ G G'); subst h'; clear G'
    end; try contradiction; auto.
Qed.
(** One round of exchange *)
Lemma one n id q p net rest : exists r t, round n id q p r t /\ exchange (net :: rest) n id q p =
  let calls := match unpack p with Some m => [(m, local)] | None => [] end in
  if t && net then let '(c, r') := exchange rest (n + length calls)%nat id q p in (calls ++ c, r') else (calls, r).
Proof.
  destruct (trip_spec n id q p) as (r & h & S & C & M). cbn [NetRes_model.exchange]. destruct (trip n id q p) as [calls x]. cbn [fst snd] in *. subst x calls.
  destruct r as [b| |], h as [h|]; try contradiction.
  - destruct M as (a & G & F & R). destruct (Nat.eq_dec (length (g_questions h)) 1) as [L|L].
    + exists (Got b), (g_tc h). split; [now apply (round_ok _ _ _ _ _ _ _ _ a)|]. destruct (g_questions h) as [|x [|y l]]; try discriminate. reflexivity.
    + exists Failed, false. split; [now apply (round_many _ _ _ _ _ _ _ _ a b h)|]. destruct (g_questions h) as [|x [|y l]]; try reflexivity. now cbn in L.
  - exists Failed, false. split; [|reflexivity]. destruct M as [M|(a & G & M)]; [now apply round_none|now apply (round_big _ _ _ _ _ _ _ _ a)].
  - exists Hang, false. split; [|reflexivity]. destruct M as (a & b & G & F & M). now apply (round_other _ _ _ _ _ _ _ _ a b).
Qed.
Lemma tc_calls n id q p r : round n id q p r true -> exists m, unpack p = Some m.
Proof. intros R. inversion R; subst. match goal with G : gives _ _ _ |- _ => destruct G as (m & U & _) end. eauto. Qed.
(** The whole exchange *)
Lemma exchange_spec (useTCP : bool) n id q p : exists r t, round n id q p r t /\
  if t && negb useTCP then exists m r' t', unpack p = Some m /\ round (S n) id q p r' t' /\ exchange (networks useTCP) n id q p = ([(m, local); (m, local)], r')
  else exchange (networks useTCP) n id q p = (match unpack p with Some m => [(m, local)] | None => [] end, r).
Proof.
  destruct useTCP; cbn [networks negb].
  - destruct (one n id q p false []) as (r & t & R & E). exists r, t. split; auto. rewrite E. cbv zeta. now rewrite andb_false_r.
  - destruct (one n id q p true [false]) as (r & t & R & E). exists r, t. split; auto. rewrite E. cbv zeta. rewrite andb_true_r. destruct t; auto.
    destruct (tc_calls _ _ _ _ _ R) as (m & U). rewrite U. cbn [length]. rewrite Nat.add_1_r. destruct (one (S n) id q p false []) as (r' & t' & R' & E'). exists m, r', t'. split; auto. split; auto.
    rewrite E'. cbv zeta. rewrite U, andb_false_r. reflexivity.
Qed.
Lemma exchange_sends (useTCP : bool) n id q p : Forall (fun c => unpack p = Some (fst c) /\ snd c = local) (fst (exchange (networks useTCP) n id q p)) /\ (length (fst (exchange (networks useTCP) n id q p)) <= 2)%nat.
Proof.
  destruct (exchange_spec useTCP n id q p) as (r & t & R & E). destruct (t && negb useTCP).
  - destruct E as (m & r' & t' & U & _ & ->). cbn. split; [|lia]. repeat constructor; auto.
  - rewrite E. destruct (unpack p) eqn:U; cbn; split; try lia; repeat constructor; auto.
Qed.
Lemma exchange_got (useTCP : bool) n id q p calls b : exchange (networks useTCP) n id q p = (calls, Got b) ->
  exists k a h, gives k p a /\ fits a b /\ response_to id q b h /\ (exists x, g_questions h = [x]) /\ (n <= k /\ length calls = S (k - n))%nat /\ (g_tc h = true -> useTCP = true \/ k = S n).
Proof.
  destruct (exchange_spec useTCP n id q p) as (r & t & R & E). destruct (t && negb useTCP) eqn:T.
  - destruct E as (m & r' & t' & U & R' & ->). intros [= <- ->]. inversion R'; subst. exists (S n), a, h. destruct (g_questions h) as [|x [|y l]] eqn:Q; try discriminate. split; [auto|]. split; [auto|]. split; [auto|]. split; [eauto|]. split; [cbn [length]; lia|auto].
  - rewrite E. intros [= <- ->]. inversion R; subst. exists n, a, h. destruct (g_questions h) as [|x [|y l]] eqn:Q; try discriminate.
    assert (exists m, unpack p = Some m) as (m & U) by (destruct H0 as (m & U & _); eauto). rewrite U. split; [auto|]. split; [auto|]. split; [auto|]. split; [eauto|]. split; [cbn [length]; lia|]. intros TC. rewrite TC in T. destruct useTCP; [auto|discriminate].
Qed.
Lemma exchange_hangs (useTCP : bool) n id q p : snd (exchange (networks useTCP) n id q p) = Hang <->
  round n id q p Hang false \/ (useTCP = false /\ (exists b, round n id q p (Got b) true) /\ round (S n) id q p Hang false).
Proof.
  destruct (exchange_spec useTCP n id q p) as (r & t & R & E). destruct (t && negb useTCP) eqn:T.
  - apply andb_true_iff in T as [-> T]. apply negb_true_iff in T. destruct E as (m & r' & t' & U & R' & ->). cbn [snd]. split.
    + intros ->. right. split; auto. split; [destruct r as [b| |]; [eauto|inversion R|inversion R]|]. assert (t' = false) as -> by (now inversion R'). exact R'.
    + intros [H|(_ & _ & H)]; [destruct (round_fun _ _ _ _ _ _ _ _ R H); discriminate|]. now destruct (round_fun _ _ _ _ _ _ _ _ R' H).
  - rewrite E. cbn [snd]. split.
    + intros ->. left. assert (t = false) as -> by (now inversion R). exact R.
    + intros [H|(U & (b & H) & _)]; destruct (round_fun _ _ _ _ _ _ _ _ R H); auto. subst. discriminate.
Qed.
(** Answers that match: no waiting *)
Lemma round_hang n id q p t : matching resolve unpack pack parse id q p -> ~ round n id q p Hang t.
Proof. intros M R. inversion R as [| |a b G F NR| |]; subst. destruct (M n a b G F) as (h & HR). exact (NR _ HR). Qed.
Lemma exchange_ends (useTCP : bool) n id q p : matching resolve unpack pack parse id q p -> snd (exchange (networks useTCP) n id q p) <> Hang.
Proof. intros M H. apply exchange_hangs in H as [H|(_ & _ & H)]; exact (round_hang _ _ _ _ _ M H). Qed.
Lemma agree_matching id q p : agree pack parse -> asks unpack id q p -> (forall n m a, unpack p = Some m -> resolve n m local = Ans a -> m_id a = m_id m /\ m_response a = true /\ echoes m a) -> matching resolve unpack pack parse id q p.
Proof.
  intros AG (m & U & ID & Q) S n a b (m' & U' & R) (P & L). assert (m' = m) as -> by congruence. destruct (S n m a U R) as (I & RE & E). exists (GHead (m_id a) (m_response a) (m_tc a) (m_question a)).
  split; [now apply AG|]. cbn. split; [auto|]. split; [congruence|]. destruct E as [E|(x & l & y & l' & E1 & E2 & E3 & E4 & E5)]; [rewrite Q in E; discriminate|]. rewrite Q in E1. injection E1 as <- <-. eauto 10.
Qed.
(** Whole lookups *)
Variable final : bytes -> bool.
Notation try := (tryOneName resolve unpack pack parse final).
Lemma try_ends (useTCP : bool) q : forall rs n, (forall id p, In (id, p) rs -> matching resolve unpack pack parse id q p) -> snd (try useTCP n q rs) <> Hang.
Proof.
  induction rs as [|[id p] rs IH]; intros n M; cbn [tryOneName]; [discriminate|].
  pose proof (exchange_ends useTCP n id q p (M _ _ (or_introl eq_refl))) as NH. destruct (exchange (networks useTCP) n id q p) as [calls r]. cbn [snd] in NH.
  specialize (IH (n + length calls)%nat (fun i x H => M i x (or_intror H))). destruct (try useTCP _ q rs) as [c r']. destruct r as [b| |]; [destruct (final b); cbn; [discriminate|exact IH]|exact IH|contradiction].
Qed.
Lemma try_calls (useTCP : bool) q : forall rs n, (length (fst (try useTCP n q rs)) <= 2 * length rs)%nat /\ Forall (fun c => snd c = local /\ exists id p, In (id, p) rs /\ unpack p = Some (fst c)) (fst (try useTCP n q rs)).
Proof.
  induction rs as [|[id p] rs IH]; intros n; cbn [tryOneName]; [cbn; split; [lia|constructor]|].
  pose proof (exchange_sends useTCP n id q p) as [F L]. destruct (exchange (networks useTCP) n id q p) as [calls r]. cbn [fst] in F, L.
  assert (Forall (fun c => snd c = local /\ exists i x, In (i, x) ((id, p) :: rs) /\ unpack x = Some (fst c)) calls) as F1. { eapply Forall_impl; [|exact F]. intros c [A B]. split; auto. exists id, p. split; [now left|auto]. }
  specialize (IH (n + length calls)%nat). destruct (try useTCP _ q rs) as [c r']. cbn [fst] in IH. destruct IH as [IL IF].
  assert (Forall (fun c => snd c = local /\ exists i x, In (i, x) ((id, p) :: rs) /\ unpack x = Some (fst c)) c) as F2. { eapply Forall_impl; [|exact IF]. intros d (A & i & x & B & D). split; auto. exists i, x. split; [now right|auto]. }
  cbn [length]. destruct r as [b| |]; [destruct (final b)| |]; cbn [fst]; rewrite ?app_length; (split; [lia|]); try (apply Forall_app; split); auto.
Qed.
Lemma try_got (useTCP : bool) q b : forall rs n, snd (try useTCP n q rs) = Got b -> final b = true /\ exists id p k a h, In (id, p) rs /\ gives k p a /\ fits a b /\ response_to id q b h /\ exists x, g_questions h = [x].
Proof.
  induction rs as [|[id p] rs IH]; intros n; cbn [tryOneName]; [discriminate|].
  destruct (exchange (networks useTCP) n id q p) as [calls r] eqn:E. specialize (IH (n + length calls)%nat). destruct (try useTCP _ q rs) as [c r'].
  assert (r' = Got b -> final b = true /\ exists i x k a h, In (i, x) ((id, p) :: rs) /\ gives k x a /\ fits a b /\ response_to i q b h /\ exists x, g_questions h = [x]) as REST.
  { intros H. destruct (IH H) as (F & i & x & k & a & h & I & R). split; auto. exists i, x, k, a, h. split; [now right|auto]. }
  destruct r as [b'| |]; cbn [snd]; auto; [|discriminate]. destruct (final b') eqn:F; cbn [snd]; auto. intros [= ->]. split; auto. destruct (exchange_got _ _ _ _ _ _ _ E) as (k & a & h & G & FI & R & X & _). exists id, p, k, a, h. split; [now left|auto].
Qed.
End PROOFS.

(** Clients as bootstrap resolvers *)
Lemma try_sound resolve unpack pack parse final (useTCP : bool) q rs n : agree pack parse -> (forall id p, In (id, p) rs -> asks unpack id q p) ->
  (forall k m a, resolve k m local = Ans a -> m_id a = m_id m /\ m_response a = true /\ echoes m a) -> snd (tryOneName resolve unpack pack parse final useTCP n q rs) <> Hang.
Proof. intros AG AS S. apply try_ends. intros id p I. apply agree_matching; auto. intros k m a _. apply S. Qed.
Lemma doq_sound unpack pack answer conn dials q a : (forall b a, unpack b = Some a -> opt_wf a) -> snd (doq_resolve unpack pack answer conn dials q) = Ans a -> m_id a = m_id q /\ echoes q a.
Proof. intros W H. apply (doq_answer unpack pack answer W) in H as (c & b & data & p & a0 & _ & _ & _ & _ & (I & _) & E & _). auto. Qed.
Lemma pipe_sound l s k a : reached l s -> callers s k = CRet (Ans a) -> exists q, In (ECall k q) l /\ m_id a = m_id q /\ echoes q a.
Proof. intros R C. destruct (pipe_answer l s k a R C) as (q & I & (n & id & a0 & _ & _ & _ & _ & W & _) & E). eauto. Qed.
Lemma large resolve unpack pack parse (useTCP : bool) n id q p a b : gives resolve unpack n p a -> pack a = Some b -> 1232 < N.of_nat (length b) -> snd (exchange resolve unpack pack parse (networks useTCP) n id q p) = Failed.
Proof.
  intros G P L. destruct (exchange_spec resolve unpack pack parse useTCP n id q p) as (r & t & R & E).
  assert (round resolve unpack pack parse n id q p Failed false) as R'. { apply (round_big _ _ _ _ _ _ _ _ a G). intros c [P' L']. assert (c = b) as -> by congruence. lia. }
  destruct (round_fun resolve unpack pack parse _ _ _ _ _ _ _ _ R R') as [-> ->]. cbn [andb] in E. now rewrite E.
Qed.
