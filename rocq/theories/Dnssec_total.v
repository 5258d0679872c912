(** dnssec: no nil dereference as long as the resolver does not drop queries. *)
From Verif Require Import Base Bytes Dns Name_model Denial_model Keystore_model Dnssec_model.
Open Scope N_scope.

Section TOTAL.
Variable verify : rr -> rr -> list rr -> bool.
Variable keyTag : rr -> N.
Variable toDS : rr -> N -> option string.
Variable hashName : string -> N -> N -> string -> string.
Variable W : msg -> result -> Prop.
Hypothesis no_drop : forall q, ~ W q Drop.

Fixpoint np {R} (p : prog R) : Prop :=
  match p with
  | Ret _ => True
  | Panic => False
  | Fuel => True
  | Ask q k => forall a, W q a -> np (k a)
  | Now k => forall t, np (k t)
  | GetKeys z k => forall x, np (k x)
  | PutKeys z ks t k => np k
  | GetDS z k => forall x, np (k x)
  | Shuffle l k => forall x, np (k x)
  end.
Lemma np_bind {A B} (p : prog A) (f : A -> prog B) : np p -> (forall x, np (f x)) -> np (bind p f).
Proof. intros H F. induction p; cbn in *; auto. Qed.
Lemma np_key z : np (lookupDNSKEY z).
Proof. cbn. intros a HW. destruct a as [a| |e]; [|exact (no_drop _ HW)|exact I]. destruct (negb (m_rcode a =? RcodeSuccess)); exact I. Qed.
Lemma np_ds z : np (lookupDS z).
Proof. cbn. intros a HW. destruct a as [a| |e]; [|exact (no_drop _ HW)|exact I]. destruct (m_rcode a =? RcodeSuccess); exact I. Qed.
Lemma np_any sigs keys rrset : np (anySig verify keyTag sigs keys rrset).
Proof. induction sigs as [|s sigs IH]; cbn; [exact I|]. intros t. destruct (verifyRRSIG _ _ s keys rrset t); [exact I|exact IH]. Qed.
Lemma np_finish zone zsk ksk sigs ds : np (finish verify keyTag toDS zone zsk ksk sigs ds).
Proof. unfold finish. destruct (filterKeysByDS toDS ksk ds); [exact I|]. apply np_bind; [apply np_any|]. intros ok. destruct ok; cbn; auto. Qed.
Lemma np_chain fuel : forall zone, np (chain verify keyTag toDS hashName fuel zone).
Proof.
  induction fuel as [|fuel IH]; intros zone; [exact I|]. cbn [chain]. cbn [np]. intros [zsk0 ksk0]. destruct zsk0; [destruct ksk0|]; try exact I.
  apply np_bind; [apply np_key|]. intros [[[zsk ksk] sigs]|]; [|exact I]. destruct ksk as [|k ks]; [exact I|]. destruct (String.eqb (canonicalName zone) "."); [cbn [np]; intros ds; destruct ds; [exact I|apply np_finish]|].
  apply np_bind; [apply np_ds|]. intros [[[ds dsSigs] resp]|]; [|exact I]. apply np_bind; [apply IH|]. intros [e|[pz pk]]; [exact I|]. destruct ds as [|d ds].
  - cbn [np]. intros t. destruct (verifyDSDenial verify keyTag hashName resp (canonicalName zone) pz t); exact I.
  - destruct dsSigs as [|s ss]; [exact I|]. apply np_bind; [apply np_any|]. intros ok. destruct ok; [apply np_finish|exact I].
Qed.
Lemma np_build zone : np (buildChainOfTrust verify keyTag toDS hashName zone).
Proof. apply np_chain. Qed.
Lemma np_nods zone : np (proveNoDS verify keyTag toDS hashName zone).
Proof.
  unfold proveNoDS. apply np_bind; [apply np_ds|]. intros [[[ds dsSigs] resp]|]; [|exact I]. destruct ds; [|exact I]. apply np_bind; [apply np_build|]. intros [[]|[pz pk]]; try exact I.
  cbn [np]. intros t. destruct (verifyDSDenial verify keyTag hashName resp zone pz t); exact I.
Qed.
Lemma np_insecure name : np (checkInsecureDelegation verify keyTag toDS hashName name).
Proof.
  unfold checkInsecureDelegation. destruct (String.eqb (canonicalName name) "."); [exact I|]. induction (suffix_zones (splitDomainName (canonicalName name))) as [|z zs IH]; [exact I|]. cbn [insecure_loop].
  apply np_bind; [apply np_nods|]. intros [e|[]]; [exact I|exact I|exact IH].
Qed.
Lemma np_rrset owner rrset sigs : forall e, np (rrset_loop verify keyTag toDS hashName owner rrset sigs e).
Proof.
  induction sigs as [|s sigs IH]; intros e; [exact I|]. cbn [rrset_loop]. destruct (negb _); [apply IH|]. apply np_bind; [apply np_build|]. intros [e'|[z k]]; [apply IH|]. cbn [np]. intros t. destruct (verifyRRSIG _ _ s z rrset t); [exact I|apply IH].
Qed.
Lemma np_signed rrset sigs qname : np (signedFromAncestor verify keyTag toDS hashName rrset sigs qname).
Proof.
  induction sigs as [|s sigs IH]; [exact I|]. cbn [signedFromAncestor]. destruct (negb _); [apply IH|]. apply np_bind; [apply np_build|]. intros [e'|[z k]]; [apply IH|]. cbn [np]. intros t. destruct (verifyRRSIG _ _ s z rrset t); [exact I|apply IH].
Qed.
Lemma np_collect gs qname : np (collect verify keyTag toDS hashName gs qname).
Proof.
  induction gs as [|g gs IH]; [exact I|]. cbn [collect]. destruct (negb _); [exact IH|]. apply np_bind; [apply np_signed|]. intros []; [|exact IH]. apply np_bind; [exact IH|]. intros x. exact I.
Qed.
Lemma np_fail name : np (do e <- checkInsecureDelegation verify keyTag toDS hashName name; match e with Some e => Ret (Some e) | None => Ret (Some Bogus) end).
Proof. apply np_bind; [apply np_insecure|]. intros [e|]; exact I. Qed.
Lemma np_validate a : np (validate verify keyTag toDS hashName a).
Proof.
  unfold validate. destruct (m_answer a) as [|r rs].
  - unfold validateDenial. destruct (m_question a) as [|q qs]; [exact I|]. cbn [np]. intros gs. apply np_bind; [apply np_collect|]. intros ds. destruct (nsecProvesDenial _ _ _ _); [exact I|]. destruct (nsec3ProvesDenial _ _ _ _ _); [exact I|]. apply np_fail.
  - cbn [np]. intros gs. induction gs as [|g gs IH]; [exact I|]. cbn [validate_groups]. apply np_bind; [|intros [e|]; [exact I|exact IH]]. destruct (g_sigs g); [apply np_fail|apply np_rrset].
Qed.
Lemma np_resolve logOnly q : m_question q <> [] -> np (resolve verify keyTag toDS hashName logOnly q).
Proof.
  intros H. unfold resolve. destruct (m_question q) as [|qu qs]; [congruence|]. cbn [np]. intros [a| |e] _; try exact I. unfold after_answer. destruct (_ && _); [exact I|].
  apply np_bind; [apply np_validate|]. intros [[]|]; try exact I. destruct (negb logOnly); exact I.
Qed.
Lemma np_pstep {R} t s (p : prog R) s' p' : pstep W t s p s' p' -> np p -> np p'.
Proof. destruct 1; cbn; auto. Qed.
Lemma np_steps {R} (st st' : sys R) : steps W st st' -> Forall np (s_threads st) -> Forall np (s_threads st').
Proof.
  induction 1 as [s|s s1 s2 _ IH H]; [auto|]. intros F. specialize (IH F). destruct H as [|t s0 ts1 p ts2 s' p' P]; cbn in *; [exact IH|].
  apply Forall_app in IH. destruct IH as [F1 F2]. apply Forall_app. split; [exact F1|]. inversion F2; subst. constructor; [eapply np_pstep; eassumption|assumption].
Qed.
Lemma no_panic logOnly t s qs st i : (forall q, In q qs -> m_question q <> []) -> steps W (Sys t s (map (resolve verify keyTag toDS hashName logOnly) qs)) st -> nth_error (s_threads st) i <> Some Panic.
Proof.
  intros HQ S E. assert (F : Forall np (s_threads st)) by (apply (np_steps _ _ S); cbn; apply Forall_forall; intros p I; apply in_map_iff in I; destruct I as (q & <- & I); apply np_resolve, HQ, I).
  apply nth_error_In in E. rewrite Forall_forall in F. exact (F _ E).
Qed.
End TOTAL.
