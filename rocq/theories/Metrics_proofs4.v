(** Proofs about counters: the validator and the names *)
From Verif Require Import Base Bytes Dns Metrics_model Metrics_spec Metrics_proofs.
From Verif Require Import Dnssec_model.
Local Open Scope string_scope.
Local Open Scope bool_scope.
Local Open Scope nat_scope.

(** ** Validator *)
Lemma yields_bind1 {A B} (p : prog A) (f : A -> prog B) r : yields (bind p f) r -> exists a, yields p a /\ yields (f a) r.
Proof.
  induction p as [x| | |q k IH|k IH|z k IH|z l n k IH|z k IH|l k IH]; cbn [bind]; intros Y; try (inversion Y; fail).
  - exists x. split; [constructor|exact Y].
  - inversion Y as [|q' k' a' r' Y'| | | | |]; subst. destruct (IH _ Y') as (x & X & Z). exists x. split; [econstructor; exact X|exact Z].
  - inversion Y as [| |k' a' r' Y'| | | |]; subst. destruct (IH _ Y') as (x & X & Z). exists x. split; [econstructor; exact X|exact Z].
  - inversion Y as [| | |z' k' a' r' Y'| | |]; subst. destruct (IH _ Y') as (x & X & Z). exists x. split; [econstructor; exact X|exact Z].
  - inversion Y as [| | | |z' l' n' k' r' Y'| |]; subst. destruct (IH Y') as (x & X & Z). exists x. split; [econstructor; exact X|exact Z].
  - inversion Y as [| | | | |z' k' a' r' Y'|]; subst. destruct (IH _ Y') as (x & X & Z). exists x. split; [econstructor; exact X|exact Z].
  - inversion Y as [| | | | | |l' k' a' r' Y']; subst. destruct (IH _ Y') as (x & X & Z). exists x. split; [econstructor; exact X|exact Z].
Qed.
Lemma yields_bind2 {A B} (p : prog A) (f : A -> prog B) r a : yields p a -> yields (f a) r -> yields (bind p f) r.
Proof. induction 1; cbn [bind]; intros Y; try (econstructor; eauto; fail). exact Y. Qed.
Lemma yields_ret {R} (x r : R) : yields (Ret x) r -> r = x.
Proof. inversion 1; reflexivity. Qed.
Lemma strip_ad m d h t : m_ad (stripDNSSEC m d h t) = m_ad m.
Proof. unfold stripDNSSEC. destruct d; [reflexivity|]. destruct h; reflexivity. Qed.

Section Validator.
Variable verify : rr -> rr -> list rr -> bool.
Variable keyTag : rr -> N.
Variable toDS : rr -> N -> option string.
Variable hashName : string -> N -> N -> string -> string.
Notation val := (validate verify keyTag toDS hashName).
Lemma val_counts logOnly q r l : yields (validate_bumps verify keyTag toDS hashName logOnly q) (r, l) ->
  yields (resolve verify keyTag toDS hashName logOnly q) r /\
  times (int "validation-success") l + times (int "validation-failure") l <= 1 /\
  (times (int "validation-success") l = 1 -> exists a b, yields (val a) None /\ r = Ans b /\ m_ad b = true) /\
  (times (int "validation-failure") l = 1 -> exists a, yields (val a) (Some Bogus) /\ (logOnly = false -> r = Ans (servfail q))) /\
  (times (int "validation-success") l = 0 -> times (int "validation-failure") l = 0 ->
     r = Drop \/ (exists e, r = Err e) \/ exists a b, r = Ans b /\ m_ad b = m_ad a /\ (m_rcode a <> RcodeSuccess /\ m_rcode a <> RcodeNameError \/ yields (val a) (Some Insecure))).
Proof.
  unfold validate_bumps, resolve. destruct (m_question q) as [|x ql]; [intros Y; inversion Y|]. intros Y. inversion Y as [|q' k' up r' Y'| | | | |]; subst. clear Y.
  destruct up as [a| |e].
  2: { apply yields_ret in Y'. injection Y' as -> ->. split; [apply (y_ask _ _ Drop); constructor|]. split; [cbn; lia|]. split; [discriminate|]. split; [discriminate|]. auto. }
  2: { apply yields_ret in Y'. injection Y' as -> ->. split; [apply (y_ask _ _ (Err e)); constructor|]. split; [cbn; lia|]. split; [discriminate|]. split; [discriminate|]. eauto. }
  unfold after_bumps in Y'. destruct (negb (N.eqb (m_rcode a) RcodeSuccess) && negb (N.eqb (m_rcode a) RcodeNameError)) eqn:C.
  - apply yields_ret in Y'. injection Y' as -> ->. split; [apply (y_ask _ _ (Ans a)); unfold after_answer; rewrite C; constructor|]. split; [cbn; lia|]. split; [discriminate|]. split; [discriminate|].
    intros _ _. right. right. exists a, (stripDNSSEC a (set_do q) (had_edns0 q) (q_type x)). split; [reflexivity|]. split; [apply strip_ad|]. left.
    apply andb_true_iff in C as (C1 & C2). apply negb_true_iff in C1, C2. apply N.eqb_neq in C1, C2. auto.
  - apply yields_bind1 in Y' as (e & V & Y').
    assert (K : forall r', yields (match e with None => Ret (Ans (stripDNSSEC (set_ad true a) (set_do q) (had_edns0 q) (q_type x))) | Some Insecure => Ret (Ans (stripDNSSEC a (set_do q) (had_edns0 q) (q_type x)))
       | Some Bogus => if negb logOnly then Ret (Ans (servfail q)) else Ret (Ans (stripDNSSEC a (set_do q) (had_edns0 q) (q_type x))) end) r' ->
       yields (Ask (upstream_query q) (fun res => match res with Ans a => after_answer verify keyTag toDS hashName logOnly q a (q_type x) | other => Ret other end)) r').
    { intros r' H. apply (y_ask _ _ (Ans a)). unfold after_answer. rewrite C. eapply yields_bind2; [exact V|exact H]. }
    destruct e as [[|]|].
    + apply yields_ret in Y'. injection Y' as -> ->. split; [apply K; constructor|]. split; [cbn; lia|]. split; [discriminate|]. split; [discriminate|].
      intros _ _. right. right. exists a, (stripDNSSEC a (set_do q) (had_edns0 q) (q_type x)). split; [reflexivity|]. split; [apply strip_ad|auto].
    + destruct logOnly; cbn [negb] in *; apply yields_ret in Y'; injection Y' as -> ->; (split; [apply K; constructor|]); (split; [cbn; lia|]); (split; [discriminate|]); (split; [intros _; exists a; split; [exact V|intros; congruence]|]); discriminate.
    + apply yields_ret in Y'. injection Y' as -> ->. split; [apply K; constructor|]. split; [cbn; lia|]. split.
      { intros _. exists a, (stripDNSSEC (set_ad true a) (set_do q) (had_edns0 q) (q_type x)). split; [exact V|]. split; [reflexivity|]. rewrite strip_ad. reflexivity. }
      split; discriminate.
Qed.
Lemma val_counted logOnly q r : yields (resolve verify keyTag toDS hashName logOnly q) r -> exists l, yields (validate_bumps verify keyTag toDS hashName logOnly q) (r, l).
Proof.
  unfold validate_bumps, resolve. destruct (m_question q) as [|x ql]; [intros Y; inversion Y|]. intros Y. inversion Y as [|q' k' up r' Y'| | | | |]; subst. clear Y.
  destruct up as [a| |e].
  2: { apply yields_ret in Y' as ->. exists []. apply (y_ask _ _ Drop). constructor. }
  2: { apply yields_ret in Y' as ->. exists []. apply (y_ask _ _ (Err e)). constructor. }
  unfold after_answer in Y'. destruct (negb (N.eqb (m_rcode a) RcodeSuccess) && negb (N.eqb (m_rcode a) RcodeNameError)) eqn:C.
  - apply yields_ret in Y' as ->. exists []. apply (y_ask _ _ (Ans a)). unfold after_bumps. rewrite C. constructor.
  - apply yields_bind1 in Y' as (e & V & Y'). destruct e as [[|]|]; [|destruct logOnly; cbn [negb] in Y'|]; apply yields_ret in Y' as ->; eexists; apply (y_ask _ _ (Ans a)); unfold after_bumps; rewrite C; eapply yields_bind2; try exact V; constructor.
Qed.
End Validator.

(** ** Names *)
Lemma has_dot_app a b : has_dot (a ++ b) = has_dot a || has_dot b.
Proof. induction a as [|c a IH]; [reflexivity|]. cbn. rewrite IH. apply orb_assoc. Qed.
Lemma split_first a : forall b x y, has_dot a = false -> has_dot b = false -> a ++ "." ++ x = b ++ "." ++ y -> a = b /\ x = y.
Proof.
  induction a as [|c a IH]; intros [|d b] x y A B E; cbn in *.
  - injection E as <-. auto.
  - injection E as <- _. discriminate.
  - injection E as -> _. discriminate.
  - injection E as <- E. apply orb_false_iff in A as (_ & A), B as (_ & B). destruct (IH b x y A B E) as (-> & ->). auto.
Qed.
Lemma split_last i : forall j a b, has_dot a = false -> has_dot b = false -> i ++ "." ++ a = j ++ "." ++ b -> i = j /\ a = b.
Proof.
  induction i as [|c i IH]; intros [|d j] a b A B E; cbn [append] in *.
  - injection E as <-. auto.
  - injection E as _ E. rewrite E, has_dot_app in A. cbn in A. rewrite orb_true_r in A. discriminate.
  - injection E as _ E. rewrite <- E, has_dot_app in B. cbn in B. rewrite orb_true_r in B. discriminate.
  - injection E as <- E. destruct (IH j a b A B E) as (-> & ->). auto.
Qed.
Lemma append_inj p : forall a b, p ++ a = p ++ b -> a = b.
Proof. induction p as [|c p IH]; intros a b E; [exact E|]. injection E as E. exact (IH a b E). Qed.
Lemma fullname_inj b1 i1 n1 b2 i2 n2 : has_dot b1 = false -> has_dot b2 = false -> has_dot n1 = false -> has_dot n2 = false ->
  fullname b1 i1 n1 = fullname b2 i2 n2 -> b1 = b2 /\ i1 = i2 /\ n1 = n2.
Proof.
  intros B1 B2 N1 N2 E. unfold fullname in E. apply append_inj in E. apply split_first in E as (-> & E); auto. apply split_last in E as (-> & ->); auto.
Qed.
(** What is an expvar.Map *)
Definition kind_of (base name : string) : kind :=
  if String.eqb name "response" || String.eqb name "error" || String.eqb name "route" || String.eqb name "failure" || String.eqb name "rtt" then KMap else KInt.
Definition fine (v : kind * string * string * string) : Prop :=
  let '(k, b, i, n) := v in k = kind_of b n /\ has_dot b = false /\ has_dot n = false.
Lemma vars_fine c id : Forall fine (vars c id).
Proof. destruct c; cbn [vars]; repeat constructor. Qed.
Lemma fine_all l : Forall fine (flat_map (fun x => vars (fst x) (snd x)) l).
Proof. induction l as [|[c i] l IH]; [constructor|]. cbn [flat_map]. apply Forall_app. split; [apply vars_fine|exact IH]. Qed.
Lemma lookup_in n k r : lookup n r = Some k -> In (n, k) r.
Proof. induction r as [|[m k'] r IH]; cbn; [discriminate|]. destruct (String.eqb_spec m n) as [->|]; [intros [= ->]; auto|auto]. Qed.
Definition known (r0 r : registry) : Prop :=
  forall m k, In (m, k) r -> In (m, k) r0 \/ exists b i n, m = fullname b i n /\ fine (k, b, i, n).
Lemma fullname_prefix b i n : is_prefix "routedns." (fullname b i n) = true.
Proof. reflexivity. Qed.
Lemma same_refl k : same_kind k k = true.
Proof. destruct k; reflexivity. Qed.
Lemma get_ok r0 l : foreign r0 -> Forall fine l -> forall r, known r0 r ->
  exists r', get_all l r = Some r' /\ known r0 r' /\ (forall n k, lookup n r = Some k -> lookup n r' = Some k) /\
             (forall k b i n, In (k, b, i, n) l -> lookup (fullname b i n) r' = Some k) /\
             (forall m k, lookup m r' = Some k -> lookup m r = Some k \/ exists b i n, In (k, b, i, n) l /\ m = fullname b i n).
Proof.
  intros F. induction 1 as [|[[[k b] i] n] l HF Hl IH]; intros r K; cbn [get_all].
  - exists r. repeat split; auto. intros k b i n [].
  - assert (G : exists r1, getVar k b i n r = Some r1 /\ known r0 r1 /\ (forall m k', lookup m r = Some k' -> lookup m r1 = Some k') /\ lookup (fullname b i n) r1 = Some k /\
                 (forall m k', lookup m r1 = Some k' -> lookup m r = Some k' \/ m = fullname b i n /\ k' = k)).
    { unfold getVar. destruct (lookup (fullname b i n) r) as [k'|] eqn:L.
      - destruct (K _ _ (lookup_in _ _ _ L)) as [I0|(b' & i' & n' & E & F')].
        + specialize (F _ _ I0). rewrite fullname_prefix in F. discriminate.
        + destruct HF as (-> & B & N), F' as (Ek & B' & N'). apply fullname_inj in E as (<- & <- & <-); auto. subst k'. rewrite same_refl. exists r. repeat split; auto.
      - eexists. split; [reflexivity|]. split.
        + intros m k' [[= <- <-]|I]; [right; exists b, i, n; split; [reflexivity|exact HF]|exact (K _ _ I)].
        + split; [|split].
          * intros m k' L'. cbn [lookup]. destruct (String.eqb_spec (fullname b i n) m) as [<-|]; [congruence|exact L'].
          * cbn [lookup]. rewrite String.eqb_refl. reflexivity.
          * intros m k' L'. cbn [lookup] in L'. destruct (String.eqb_spec (fullname b i n) m) as [<-|]; [injection L' as <-; auto|auto]. }
    destruct G as (r1 & -> & K1 & M1 & G1 & W1). destruct (IH r1 K1) as (r' & -> & K' & M' & G' & W'). exists r'. split; [reflexivity|]. split; [exact K'|]. split; [auto|]. split.
    + intros k' b' i' n' [[= <- <- <- <-]|I]; [auto|exact (G' _ _ _ _ I)].
    + intros m k' L. destruct (W' m k' L) as [L1|(b' & i' & n' & I & E)]; [|right; exists b', i', n'; split; [right; exact I|exact E]].
      destruct (W1 m k' L1) as [L0|(-> & ->)]; [auto|]. right. exists b, i, n. split; [left; reflexivity|reflexivity].
Qed.
Lemma construct_ok l r0 : foreign r0 ->
  exists r, construct l r0 = Some r /\ (forall n k, lookup n r0 = Some k -> lookup n r = Some k) /\
    (forall c id k b i n, In (c, id) l -> In (k, b, i, n) (vars c id) -> lookup (fullname b i n) r = Some k) /\
    (forall m k, lookup m r = Some k -> lookup m r0 = Some k \/ exists c id b i n, In (c, id) l /\ In (k, b, i, n) (vars c id) /\ m = fullname b i n).
Proof.
  intros F. destruct (get_ok r0 _ F (fine_all l) r0) as (r & E & _ & M & G & W); [intros m k I; auto|].
  exists r. split; [exact E|]. split; [exact M|]. split.
  - intros c id k b i n I V. apply G. apply in_flat_map. exists (c, id). auto.
  - intros m k L. destruct (W m k L) as [?|(b & i & n & I & ->)]; [auto|]. right. apply in_flat_map in I as ([c id] & I & V). exists c, id, b, i, n. auto.
Qed.
(** Two elements share a counter only if they have the same id (the counter of redis caches excepted) and their kinds use the same base. *)
Lemma vars_distinct c1 id1 c2 id2 k1 b1 i1 n1 k2 b2 i2 n2 :
  In (k1, b1, i1, n1) (vars c1 id1) -> In (k2, b2, i2, n2) (vars c2 id2) -> fullname b1 i1 n1 = fullname b2 i2 n2 -> b1 = b2 /\ i1 = i2 /\ n1 = n2 /\ k1 = k2.
Proof.
  intros V1 V2 E. pose proof (proj1 (Forall_forall _ _) (vars_fine c1 id1) _ V1) as (-> & B1 & N1). pose proof (proj1 (Forall_forall _ _) (vars_fine c2 id2) _ V2) as (-> & B2 & N2).
  apply fullname_inj in E as (-> & -> & ->); auto.
Qed.
Lemma vars_id c id k b i n : c <> CRedis -> In (k, b, i, n) (vars c id) -> i = id.
Proof. destruct c; try congruence; intros _ I; cbn [vars] in I; repeat (destruct I as [[= <- <- <- <-]|I]; [reflexivity|]); contradiction. Qed.
