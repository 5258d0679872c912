(** The validating resolver under a faithful resolver, with many queries at a time. *)
From Verif Require Import Base Base_proofs Bytes Dns Name_model Name_spec Name_proofs Denial_model Denial_spec Denial_proofs Keystore_model Dnssec_model Dnssec_spec Dnssec_proofs Dnssec_sys Dnssec_main Honest_spec Honest_proofs Honest_valid.
From Verif Require Anchor_proofs Dnssec_total.
From Coq Require Import ZArith ZifyBool ZifyNat ZifyN.
Open Scope N_scope.

Section HONEST.
Variable verify : rr -> rr -> list rr -> bool.
Variable keyTag : rr -> N.
Variable toDS : rr -> N -> option string.
Variable hashName : string -> N -> N -> string -> string.
Variable anchors : list anchor.
Variable W : msg -> result -> Prop.
Variables t0 T : N.
Variable tr : tree.
Variable secure : name -> Prop.
Hypothesis H : faithful verify keyTag toDS anchors W t0 T tr secure.
Hypothesis LT : T <= t0 + 4294967295.
Notation hp := (hp anchors W t0 T tr secure).
Notation build := (buildChainOfTrust verify keyTag toDS hashName).
Notation fine := (fine tr secure).

(** ** The store *)
Definition held (s : store) : Prop := forall z,
  (forall ks, e_keys (getItem s z) = Some ks -> fine (canonicalName z) (k_zsk ks) (k_ksk ks)) /\
  (canonicalName z = "."%string -> e_ds (getItem s z) = match root_ds anchors with [] => None | l => Some (l, t0 + 4294967295) end).
Lemma put_held s t z keys : held s -> fine (canonicalName z) (filter (has_flags 256) keys) (filter (has_flags 257) keys) -> held (addDNSKEY s t z keys).
Proof.
  intros S F x. unfold addDNSKEY. rewrite getItem_cons. destruct (canonicalName z =? canonicalName x)%string eqn:E; [|apply S]. apply String.eqb_eq in E. cbn [e_keys e_ds]. split.
  - intros ks [= <-]. cbn [k_zsk k_ksk]. rewrite <- E. exact F.
  - intros C. rewrite (getItem_canon s z x E). apply S, C.
Qed.
Lemma no_keys l : forall s z, e_keys (getItem s z) = None -> e_keys (getItem (fold_left (fun s a => addDS s t0 (a_owner a) [anchor_ds a]) l s) z) = None.
Proof.
  induction l as [|a l IH]; intros s z E; [exact E|]. cbn [fold_left]. apply IH. unfold addDS. rewrite getItem_cons. destruct (canonicalName (a_owner a) =? canonicalName z)%string eqn:C; [|exact E]. apply String.eqb_eq in C. cbn [e_keys]. rewrite (getItem_canon s _ z C). exact E.
Qed.
Lemma start_held : held (setAnchors t0 anchors).
Proof.
  intros z. split.
  - intros ks E. unfold setAnchors in E. rewrite no_keys in E; [discriminate E|reflexivity].
  - intros C. rewrite Anchor_proofs.anchors_at. unfold Anchor_proofs.matching, root_ds. rewrite C. destruct (filter _ anchors); reflexivity.
Qed.
Lemma held_keys s t z zsk ksk : held s -> getDNSKEY s t z = (zsk, ksk) -> (zsk = [] /\ ksk = []) \/ fine (canonicalName z) zsk ksk.
Proof.
  intros S. unfold getDNSKEY. destruct (e_keys (getItem s z)) as [ks|] eqn:E; [|intros [= <- <-]; auto]. destruct (k_expires ks <? t); intros [= <- <-]; auto. right. apply (S z). exact E.
Qed.
Lemma held_ds s t z : held s -> t <= T -> canonicalName z = "."%string -> getDS s t z = root_ds anchors.
Proof.
  intros S L C. unfold getDS. rewrite (proj2 (S z) C). destruct (root_ds anchors) as [|d l]; [reflexivity|]. destruct (N.ltb_spec (t0 + 4294967295) t); [lia|reflexivity].
Qed.
(** ** Steps *)
Definition hinv {R} (Qs : list (R -> Prop)) (st : sys R) : Prop := t0 <= s_time st /\ (s_time st <= T -> held (s_store st) /\ Forall2 (fun Q p => hp Q p) Qs (s_threads st)).
Lemma pstep_hinv {R} (Q : R -> Prop) t s p s' p' : t0 <= t -> t <= T -> held s -> hp Q p -> pstep W t s p s' p' -> held s' /\ hp Q p'.
Proof.
  intros A B S HP P. destruct P as [q k a HW|k|z k|z ks t1 k|z k|l k l' PL]; cbn [Honest_proofs.hp] in HP.
  - split; [exact S|apply HP, HW].
  - split; [exact S|apply HP; assumption].
  - split; [exact S|]. destruct (getDNSKEY s t z) as [zsk ksk] eqn:E. apply HP. apply (held_keys s t z zsk ksk S E).
  - destruct HP as [F HP]. split; [apply put_held; assumption|exact HP].
  - split; [exact S|]. apply HP. intros C. apply held_ds; assumption.
  - split; [exact S|]. apply HP, PL.
Qed.
Lemma step_hinv {R} (Qs : list (R -> Prop)) st st' : step W st st' -> hinv Qs st -> hinv Qs st'.
Proof.
  intros P [A I]. destruct P as [t t' s ts L|t s ts1 p ts2 s' p' P]; unfold hinv in *; cbn [s_time s_store s_threads] in *.
  - split; [lia|]. intros B. apply I. lia.
  - split; [exact A|]. intros B. destruct (I B) as [S F]. apply Forall2_app_inv_r in F. destruct F as (Q1 & Q2' & F1 & F2 & ->). inversion F2 as [|Q ? Q2 ? HP F3]; subst.
    destruct (pstep_hinv Q t s p s' p' A B S HP P) as [G1 G2]. split; [exact G1|]. apply Forall2_app; [exact F1|]. constructor; [exact G2|exact F3].
Qed.
Lemma steps_hinv {R} (Qs : list (R -> Prop)) st st' : steps W st st' -> hinv Qs st -> hinv Qs st'.
Proof. induction 1 as [s|s s1 s2 _ IH P]; [auto|]. intros I. apply (step_hinv Qs s1 s2 P), IH, I. Qed.
Lemma run_hp {A R} (f : A -> prog R) (Q : A -> R -> Prop) l st i x p : (forall x, hp (Q x) (f x)) -> steps W (start anchors t0 (map f l)) st -> s_time st <= T ->
  nth_error l i = Some x -> nth_error (s_threads st) i = Some p -> hp (Q x) p.
Proof.
  intros G S B EX EP. assert (I : hinv (map Q l) st).
  { apply (steps_hinv _ _ _ S). split; [cbn; lia|]. intros _. split; [apply start_held|]. cbn. clear -G. induction l as [|y l IH]; cbn; constructor; auto. }
  destruct I as [_ I]. destruct (I B) as [_ F]. destruct (Forall2_nth _ _ _ _ _ F EP) as (Q' & EQ & HP). rewrite nth_error_map, EX in EQ. injection EQ as <-. exact HP.
Qed.

(** ** Any answer keeps the store right. *)
Lemma hp_if {R} (P : Prop) (Q : R -> Prop) p : hp (fun _ => True) p -> (P -> hp Q p) -> hp (fun r => P -> Q r) p.
Proof.
  induction p as [r| | |q k IH|k IH|z k IH|z ks t k IH|z k IH|l k IH]; cbn [Honest_proofs.hp]; intros A I; auto. destruct A as [A B]. split; [exact A|]. apply IH; [exact B|]. intros p. apply (I p).
Qed.
Lemma build_any {R} (Q : R -> Prop) zone f : (forall c, hp Q (f c)) -> hp Q (bind (build zone) f).
Proof. apply (any_hp' _ _ _ _ _ _ _ _ _ _ H). Qed.
Lemma rrset_any o rrset sigs : forall last, hp (fun _ => True) (rrset_loop verify keyTag toDS hashName o rrset sigs last).
Proof.
  induction sigs as [|s sigs IH]; intros last; cbn [rrset_loop]; [exact I|]. destruct (negb _); [apply IH|]. apply build_any. intros [e|[z k]]; [apply IH|]. cbn. intros t _ _. destruct (verifyRRSIG verify keyTag s z rrset t); [exact I|apply IH].
Qed.
Lemma ancestor_any o rrset sigs : hp (fun _ => True) (signedFromAncestor verify keyTag toDS hashName rrset sigs o).
Proof.
  induction sigs as [|s sigs IH]; cbn [signedFromAncestor]; [exact I|]. destruct (negb _); [apply IH|]. apply build_any. intros [e|[z k]]; [apply IH|]. cbn. intros t _ _. destruct (verifyRRSIG verify keyTag s z rrset t); [exact I|apply IH].
Qed.
Lemma collect_any o gs : hp (fun _ => True) (collect verify keyTag toDS hashName gs o).
Proof.
  induction gs as [|g gs IH]; cbn [collect]; [exact I|]. destruct (negb _); [exact IH|]. eapply hp_seq; [apply ancestor_any|]. intros [|] _; [|exact IH]. eapply hp_seq; [exact IH|]. intros; exact I.
Qed.
Lemma insecure_any zones : hp (fun _ => True) (insecure_loop verify keyTag toDS hashName zones).
Proof.
  induction zones as [|z zones IH]; cbn [insecure_loop]; [exact I|]. eapply (hp_seq _ _ _ _ _ _ (fun _ => True)).
  - unfold proveNoDS. eapply (hp_seq _ _ _ _ _ _ (fun _ => True)).
    + apply lookupDS_hp. intros r _. destruct r as [a| |e]; auto. destruct (m_rcode a =? 0); exact I.
    + intros [[[ds sigs] resp]|] _; [|exact I]. destruct ds; [|exact I]. apply build_any. intros [[]|[pz pk]]; try exact I. cbn [Honest_proofs.hp]. intros t _ _. destruct (verifyDSDenial _ _ _ _ _ _ _); exact I.
  - intros [e|[|]] _; [exact I|exact I|exact IH].
Qed.
Lemma check_any name : hp (fun _ => True) (checkInsecureDelegation verify keyTag toDS hashName name).
Proof. unfold checkInsecureDelegation. cbv zeta. destruct (String.eqb _ _); [exact I|apply insecure_any]. Qed.
Lemma validate_any a : hp (fun _ => True) (validate verify keyTag toDS hashName a).
Proof.
  unfold validate. destruct (m_answer a) as [|x xs].
  - unfold validateDenial. destruct (m_question a) as [|q qs]; [exact I|]. cbv zeta. cbn [Honest_proofs.hp]. intros gs _. eapply hp_seq; [apply collect_any|]. intros rs _. destruct (nsecProvesDenial _ _ _ _); [exact I|]. destruct (nsec3ProvesDenial _ _ _ _ _); [exact I|].
    eapply hp_seq; [apply check_any|]. intros [e|] _; exact I.
  - cbn [Honest_proofs.hp]. intros gs _. induction gs as [|g gs IH]; cbn [validate_groups]; [exact I|]. eapply (hp_seq _ _ _ _ _ _ (fun _ => True)).
    + destruct (g_sigs g); [eapply hp_seq; [apply check_any|]; intros [e|] _; exact I|apply rrset_any].
    + intros [e|] _; [exact I|exact IH].
Qed.

(** ** Queries *)
Definition cleaned (q : msg) (out : result) (f : msg -> msg) : Prop := exists qu a, head (m_question q) = Some qu /\ W (upstream_query q) (Ans a) /\ out = Ans (stripDNSSEC (f a) (set_do q) (had_edns0 q) (q_type qu)).
Notation resolve := (resolve verify keyTag toDS hashName).
Lemma resolve_any logOnly q : hp (fun _ => True) (resolve logOnly q).
Proof.
  unfold Dnssec_model.resolve. destruct (m_question q) as [|qu qs]; [exact I|]. cbn [Honest_proofs.hp]. intros r _. destruct r as [a| |e]; try exact I. unfold after_answer. destruct (_ && _); [exact I|]. eapply hp_seq; [apply validate_any|]. intros [[]|] _; try exact I. destruct (negb logOnly); exact I.
Qed.
Lemma resolve_with logOnly q (P : msg -> Prop) e f : (forall a, P a -> (m_rcode a = 0 \/ m_rcode a = 3) /\ hp (fun x => x = e) (validate verify keyTag toDS hashName a)) ->
  ((e = None /\ f = set_ad true) \/ (e = Some Insecure /\ f = fun a => a)) -> (forall r, W (upstream_query q) r -> exists a, r = Ans a /\ P a) -> hp (fun out => cleaned q out f) (resolve logOnly q).
Proof.
  intros V EF A. unfold Dnssec_model.resolve. destruct (m_question q) as [|qu qs] eqn:EQ; [exact I|]. cbn [Honest_proofs.hp]. intros r HW. destruct (A r HW) as (a & -> & PA). destruct (V a PA) as [RC VA]. unfold after_answer.
  replace (negb (m_rcode a =? RcodeSuccess) && negb (m_rcode a =? RcodeNameError)) with false by (unfold RcodeSuccess, RcodeNameError; destruct RC as [-> | ->]; reflexivity).
  eapply hp_seq; [exact VA|]. intros x ->. unfold cleaned. rewrite EQ. destruct EF as [[-> ->]|[-> ->]]; exists qu, a; auto.
Qed.
Lemma accepted logOnly (P : msg -> Prop) e f qs st i q out :
  (forall a, P a -> (m_rcode a = 0 \/ m_rcode a = 3) /\ hp (fun x => x = e) (validate verify keyTag toDS hashName a)) -> ((e = None /\ f = set_ad true) \/ (e = Some Insecure /\ f = fun a => a)) ->
  steps W (start anchors t0 (map (resolve logOnly) qs)) st -> s_time st <= T -> nth_error qs i = Some q -> (forall r, W (upstream_query q) r -> exists a, r = Ans a /\ P a) ->
  nth_error (s_threads st) i = Some (Ret out) -> cleaned q out f.
Proof.
  intros V EF S B EQ A EP. apply (run_hp (resolve logOnly) (fun q out => (forall r, W (upstream_query q) r -> exists a, r = Ans a /\ P a) -> cleaned q out f) qs st i q (Ret out)) in EP; [exact (EP A)| |exact S|exact B|exact EQ].
  intros x. apply hp_if; [apply resolve_any|]. apply (resolve_with logOnly x P e f V EF).
Qed.
End HONEST.

Theorem signed_accepted : forall verify keyTag toDS hashName anchors W t0 T tr secure, faithful verify keyTag toDS anchors W t0 T tr secure -> T <= t0 + 4294967295 ->
  forall logOnly qs st i q out, steps W (start anchors t0 (map (resolve verify keyTag toDS hashName logOnly) qs)) st -> s_time st <= T -> nth_error qs i = Some q ->
  (forall r, W (upstream_query q) r -> exists a, r = Ans a /\ (signed_answer verify keyTag t0 T tr secure a \/ signed_denial verify keyTag hashName t0 T tr secure a)) ->
  nth_error (s_threads st) i = Some (Ret out) ->
  exists qu a, head (m_question q) = Some qu /\ W (upstream_query q) (Ans a) /\ out = Ans (stripDNSSEC (set_ad true a) (set_do q) (had_edns0 q) (q_type qu)).
Proof.
  intros verify keyTag toDS hashName anchors W t0 T tr secure F L logOnly qs st i q out S B EQ A EP.
  apply (accepted verify keyTag toDS hashName anchors W t0 T tr secure F L logOnly (fun a => signed_answer verify keyTag t0 T tr secure a \/ signed_denial verify keyTag hashName t0 T tr secure a) None (set_ad true) qs st i q out); auto.
  intros a [X|X]; (split; [|first [apply (signed_hp _ _ _ _ _ _ _ _ _ _ F _ X)|apply (denial_hp _ _ _ _ _ _ _ _ _ _ F _ X)]]); [apply X|]. destruct X as (? & ? & _ & _ & RC & _). exact RC.
Qed.
Theorem unsigned_accepted : forall verify keyTag toDS hashName anchors W t0 T tr secure, faithful verify keyTag toDS anchors W t0 T tr secure -> T <= t0 + 4294967295 ->
  forall logOnly qs st i q out, steps W (start anchors t0 (map (resolve verify keyTag toDS hashName logOnly) qs)) st -> s_time st <= T -> nth_error qs i = Some q ->
  (forall r, W (upstream_query q) r -> exists a, r = Ans a /\ (unsigned_answer verify keyTag hashName W t0 T tr secure a \/ unsigned_denial verify keyTag hashName W t0 T tr secure a)) ->
  nth_error (s_threads st) i = Some (Ret out) ->
  exists qu a, head (m_question q) = Some qu /\ W (upstream_query q) (Ans a) /\ out = Ans (stripDNSSEC a (set_do q) (had_edns0 q) (q_type qu)).
Proof.
  intros verify keyTag toDS hashName anchors W t0 T tr secure F L logOnly qs st i q out S B EQ A EP.
  apply (accepted verify keyTag toDS hashName anchors W t0 T tr secure F L logOnly (fun a => unsigned_answer verify keyTag hashName W t0 T tr secure a \/ unsigned_denial verify keyTag hashName W t0 T tr secure a) (Some Insecure) (fun a => a) qs st i q out); auto.
  intros a [X|X]; (split; [|first [apply (unsigned_hp _ _ _ _ _ _ _ _ _ _ F _ X)|apply (undenied_hp _ _ _ _ _ _ _ _ _ _ F _ X)]]); [apply X|]. destruct X as (? & ? & ? & ? & _ & _ & RC & _). exact RC.
Qed.
(** The keys of secure zones are found. *)
Theorem keys_found : forall verify keyTag toDS hashName anchors W t0 T tr secure, faithful verify keyTag toDS anchors W t0 T tr secure -> T <= t0 + 4294967295 ->
  forall zones st i zone n r, steps W (start anchors t0 (map (buildChainOfTrust verify keyTag toDS hashName) zones)) st -> s_time st <= T -> nth_error zones i = Some zone -> names zone n -> secure n ->
  nth_error (s_threads st) i = Some (Ret r) -> r = inr (t_zsk tr n, t_ksk tr n).
Proof.
  intros verify keyTag toDS hashName anchors W t0 T tr secure F L zones st i zone n r S B EZ NM SC EP.
  apply (run_hp hashName anchors W t0 T tr secure L (buildChainOfTrust verify keyTag toDS hashName) (chain_right tr secure) zones st i zone) in EP; auto; [apply (EP n SC), (names_canonical _ _ NM)|].
  intros x. apply (build_hp _ _ _ _ _ _ _ _ _ _ F).
Qed.

(** Every query can be brought to its end, without time passing. *)
Lemma runs_out {R} (W : msg -> result -> Prop) : (forall u, exists r, W u r) -> forall (p : prog R) t s pre post,
  exists s' p', steps W (Sys t s (pre ++ p :: post)) (Sys t s' (pre ++ p' :: post)) /\ (p' = Panic \/ p' = Fuel \/ exists r, p' = Ret r).
Proof.
  intros TW p. assert (ST : forall t s pre (p : prog R) post s1 p1, pstep W t s p s1 p1 ->
    (exists s' p', steps W (Sys t s1 (pre ++ p1 :: post)) (Sys t s' (pre ++ p' :: post)) /\ (p' = Panic \/ p' = Fuel \/ exists r, p' = Ret r)) ->
    exists s' p', steps W (Sys t s (pre ++ p :: post)) (Sys t s' (pre ++ p' :: post)) /\ (p' = Panic \/ p' = Fuel \/ exists r, p' = Ret r)).
  { intros t s pre q post s1 p1 P (s' & p' & S & E). exists s', p'. split; [|exact E]. remember (Sys t s1 (pre ++ p1 :: post)) as x eqn:EX. remember (Sys t s' (pre ++ p' :: post)) as y eqn:EY. clear EY E.
    induction S as [z|z z1 z2 _ IH Z]; [subst z; eapply steps_step; [apply steps_refl|apply step_prog, P]|]. eapply steps_step; [apply IH, EX|exact Z]. }
  induction p as [r| | |q k IH|k IH|z k IH|z ks t1 k IH|z k IH|l k IH]; intros t s pre post.
  - exists s, (Ret r). split; [apply steps_refl|eauto].
  - exists s, Panic. split; [apply steps_refl|auto].
  - exists s, Fuel. split; [apply steps_refl|auto].
  - destruct (TW q) as (r & HW). eapply ST; [apply st_ask, HW|apply IH].
  - eapply ST; [apply st_now|apply IH].
  - eapply ST; [apply st_get|apply IH].
  - eapply ST; [apply st_put|apply IH].
  - eapply ST; [apply st_ds|apply IH].
  - eapply ST; [apply (st_shuffle _ _ _ l k l), Permutation_refl|apply IH].
Qed.
Lemma steps_then {R} W (a b c : sys R) : steps W a b -> steps W b c -> steps W a c.
Proof. intros H1 H2. induction H2 as [s|s s1 s2 _ IH H]; [exact H1|]. eapply steps_step; [apply IH, H1|exact H]. Qed.
Lemma steps_length {R} W (a b : sys R) : steps W a b -> List.length (s_threads b) = List.length (s_threads a).
Proof. induction 1 as [s|s s1 s2 _ IH P]; [reflexivity|]. rewrite <- IH. destruct P; cbn; [reflexivity|]. rewrite !app_length. reflexivity. Qed.
Theorem queries_end : forall verify keyTag toDS hashName anchors (W : msg -> result -> Prop) logOnly t0 qs st i q, (forall u, exists r, W u r) -> (forall u, ~ W u Drop) -> (forall x, In x qs -> m_question x <> []) ->
  steps W (start anchors t0 (map (resolve verify keyTag toDS hashName logOnly) qs)) st -> nth_error qs i = Some q ->
  exists st' out, steps W st st' /\ s_time st' = s_time st /\ nth_error (s_threads st') i = Some (Ret out).
Proof.
  intros verify keyTag toDS hashName anchors W logOnly t0 qs st i q TW ND NQ S EQ. pose proof (steps_length _ _ _ S) as L. cbn in L. rewrite map_length in L.
  assert (LI : (i < List.length (s_threads st))%nat) by (rewrite L; apply nth_error_Some; congruence). destruct (nth_error (s_threads st) i) as [p|] eqn:EP; [|apply nth_error_None in EP; lia].
  destruct (nth_error_split _ _ EP) as (pre & post & ES & LP). destruct st as [t s ts]. cbn in ES, EP. subst ts. destruct (runs_out W TW p t s pre post) as (s' & p' & S' & F).
  assert (EP' : nth_error (pre ++ p' :: post) i = Some p') by (rewrite nth_error_app2 by lia; rewrite LP, Nat.sub_diag; reflexivity). pose proof (steps_then _ _ _ _ S S') as S2.
  destruct F as [-> |[-> |(out & ->)]].
  - elim (Dnssec_total.no_panic verify keyTag toDS hashName W ND logOnly t0 _ qs _ i NQ S2 EP').
  - elim (resolve_total verify keyTag toDS hashName anchors W logOnly t0 qs _ i S2 EP').
  - exists (Sys t s' (pre ++ Ret out :: post)), out. auto.
Qed.
