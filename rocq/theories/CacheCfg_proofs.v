(** Proofs about CacheCfg_model.v *)
From Verif Require Import Base Bytes Dns Lru_model Lru_proofs Blob_model Blob_spec Blob_proofs Cache_model Cache_spec Cache_proofs Cache_proofs2 Cache_proofs3 Cache_proofs4 Keystore_model ListCfg_model CacheCfg_model CacheCfg_spec.
From Verif Require Router_spec Router_proofs Shuffle_spec Shuffle_proofs Logs_model.
From Coq Require Import Permutation.
Local Open Scope N_scope.

Section W.
Context {R : Type}.
Variable w : world R.
Notation lookups := (lookup_all R (w_resolvers w)).
Lemma lookup_several names : forall l, lookups names = Some l <-> Forall2 (fun n r => w_resolvers w n = Some r) names l.
Proof.
  induction names as [|n names IH]; intros l; cbn [lookup_all]; [split; [intros H; injection H as <-; constructor|intros H; inversion H; reflexivity]|].
  destruct (w_resolvers w n) as [r|] eqn:E.
  - split.
    + destruct (lookups names) as [l'|]; [|discriminate]. cbn. intros H. injection H as <-. constructor; [exact E|]. apply IH. reflexivity.
    + intros H. inversion H as [|? r' ? l' H1 H2]; subst. apply IH in H2. rewrite H2. rewrite E in H1. injection H1 as ->. reflexivity.
  - split; [discriminate|]. intros H. inversion H; congruence.
Qed.
Lemma lookup_only g up : lookups (c_resolvers g) = Some [up] <-> only w g up.
Proof.
  rewrite lookup_several. unfold only. split.
  - intros H. inversion H as [|n r names l H1 H2 E]; subst. inversion H2; subst. exists n. split; [reflexivity|exact H1].
  - intros (n & -> & H). constructor; [exact H|constructor].
Qed.
Lemma one_some gr f e : one R gr f = Some e -> exists up, gr = [up] /\ f up = Some e.
Proof. destruct gr as [|up [|]]; try discriminate. cbn. intros H. exists up. split; [reflexivity|exact H]. Qed.
Lemma opt_some {A B} (f : A -> B) o e : option_map f o = Some e -> exists x, o = Some x /\ e = f x.
Proof. destruct o as [x|]; [|discriminate]. cbn. intros H. injection H as <-. exists x. split; reflexivity. Qed.
Ltac open := unfold made, make; let gr := fresh "gr" in let L := fresh "L" in destruct (lookups (c_resolvers _)) as [gr|] eqn:L; [|discriminate]; cbn [String.eqb Ascii.eqb Bool.eqb].
Ltac single := open; intros H; apply one_some in H; destruct H as (up & -> & H); match goal with L : _ = Some [up] |- _ => apply lookup_only in L end.

(** ** Response codes *)
Definition Limit (l : list (string * N)) (z : Z) (v : N) : Prop := exists k, In (k, v) l /\ Router_spec.signed k z.
Lemma codes_some l : forall m, codes l m <> None <-> Forall (fun kv => known_code (fst kv)) l.
Proof.
  induction l as [|[k v] l IH]; intros m; cbn [codes]; [split; [constructor|discriminate]|].
  destruct (Router_model.atoi k) as [z|] eqn:E.
  - apply Router_proofs.atoi_signed in E. rewrite IH. split; [intros H; constructor; [exists z; exact E|exact H]|intros H; inversion H; assumption].
  - split; [congruence|]. intros H. inversion H as [|? ? (z & S) _]; subst. cbn [fst] in S. apply Router_proofs.atoi_signed in S. congruence.
Qed.
Lemma signed_fun s a b : (- 2 ^ 63 <= a < 2 ^ 63)%Z -> Router_spec.signed s a -> Router_spec.signed s b -> (- 2 ^ 63 <= b < 2 ^ 63)%Z -> a = b.
Proof.
  intros A Sa Sb B. assert (E1 : Router_model.atoi s = Some a) by (apply Router_proofs.atoi_signed; auto).
  assert (E2 : Router_model.atoi s = Some b) by (apply Router_proofs.atoi_signed; auto). congruence.
Qed.
Lemma codes_value l : forall m f, codes l m = Some f -> forall z, (- 2 ^ 63 <= z < 2 ^ 63)%Z ->
  (exists v, Limit l z v /\ f z = Some v) \/ ((forall v, ~ Limit l z v) /\ f z = m z).
Proof.
  induction l as [|[k v] l IH]; intros m f E z Hz; cbn [codes] in E.
  - injection E as <-. right. split; [intros v (k & [] & _)|reflexivity].
  - destruct (Router_model.atoi k) as [c|] eqn:A; [|discriminate]. pose proof A as A'. apply Router_proofs.atoi_signed in A'. destruct A' as [Sk Bk].
    destruct (IH _ _ E z Hz) as [(v' & (k' & I' & S') & Fz)|(No & Fz)].
    + left. exists v'. split; [exists k'; split; [right; exact I'|exact S']|exact Fz].
    + cbv beta in Fz. destruct (Z.eqb_spec z c) as [->|Ne].
      * left. exists v. split; [exists k; split; [left; reflexivity|exact Sk]|exact Fz].
      * right. split; [|exact Fz]. intros v' (k' & [I'|I'] & S'); [|apply (No v'); exists k'; split; assumption].
        injection I' as <- <-. apply Ne. apply (signed_fun k z c); assumption.
Qed.


(** ** Caches *)
Definition opts (g : settings) (m : Z -> option N) : options :=
  Options (default_negttl (c_negativeTTL g)) (fun rc => m (Z.of_N rc)) (c_harden g) (c_flush g) (c_trigger g) (c_eligible g).
Lemma made_cache g e : made w "cache" g = Some e -> exists up sh m st, only w g up /\ shuffle_of (c_shuffle g) = Some sh /\ codes (c_rcodeMax g) (fun _ => None) = Some m /\
  e = ECache R up (opts g m) sh st /\
  match c_backend g with None => st = newMemory (c_size g) (seconds (c_gcPeriod g)) "" 0 | Some b => backend_of b = Some st end.
Proof.
  single. unfold newCache in H. destruct (shuffle_of (c_shuffle g)) as [sh|]; [|discriminate]. destruct (codes (c_rcodeMax g) _) as [m|]; [|discriminate].
  destruct (c_backend g) as [b|].
  - apply opt_some in H. destruct H as (st & H & ->). exists up, sh, m, st. auto 6.
  - injection H as <-. exists up, sh, m, (newMemory (c_size g) (seconds (c_gcPeriod g)) "" 0). auto 6.
Qed.
Lemma made_memory g e : made w "cache" g = Some e -> in_memory g -> exists up sh m gc file save, only w g up /\ shuffle_of (c_shuffle g) = Some sh /\ codes (c_rcodeMax g) (fun _ => None) = Some m /\
  e = ECache R up (opts g m) sh (Memory (capacity g) gc file save).
Proof.
  intros H M. destruct (made_cache g e H) as (up & sh & m & st & O & S & C & -> & B). unfold capacity. destruct M as [N|(b & E & T)].
  - rewrite N in *. subst st. unfold newMemory. eauto 12.
  - rewrite E in *. unfold backend_of in B. rewrite T in B. cbn [String.eqb Ascii.eqb Bool.eqb] in B. injection B as <-. unfold newMemory. eauto 12.
Qed.
Lemma negative_is g : default_negttl (c_negativeTTL g) = negative g.
Proof. unfold default_negttl, negative. destruct (c_negativeTTL g); reflexivity. Qed.
Lemma small_opts g m : small g -> codes (c_rcodeMax g) (fun _ => None) = Some m -> (forall z, (m z = None \/ exists k v, In (k, v) (c_rcodeMax g) /\ m z = Some v)) -> opts_ok (opts g m).
Proof.
  intros (A & B & _) C D. split; cbn [o_negttl o_rcodemax opts].
  - rewrite negative_is. unfold negative, max_ttl, Cache_model.MaxUint32. destruct (c_negativeTTL g); [discriminate|exact A].
  - intros rc n E. destruct (D (Z.of_N rc)) as [N|(k & v & I & E')]; [congruence|]. rewrite E in E'. injection E' as ->. unfold max_ttl, Cache_model.MaxUint32. exact (B _ _ I).
Qed.
Lemma codes_any l : forall m f, codes l m = Some f -> forall z, f z = m z \/ exists k v, In (k, v) l /\ f z = Some v.
Proof.
  induction l as [|[k v] l IH]; intros m f E z; cbn [codes] in E; [injection E as <-; left; reflexivity|].
  destruct (Router_model.atoi k) as [c|]; [|discriminate]. destruct (IH _ _ E z) as [F|(k' & v' & I & F)].
  - cbv beta in F. destruct (Z.eqb z c); [right; exists k, v; split; [left; reflexivity|exact F]|left; exact F].
  - right. exists k', v'. split; [right; exact I|exact F].
Qed.
Lemma opts_are_ok g m : small g -> codes (c_rcodeMax g) (fun _ => None) = Some m -> opts_ok (opts g m).
Proof. intros S C. apply (small_opts g m S C). intros z. exact (codes_any _ _ _ C z). Qed.

Lemma base_iff g m a b : base_lifetime (opts g m) a = Some b <-> unlimited g a b.
Proof.
  unfold base_lifetime. cbn [o_negttl opts]. rewrite negative_is. split.
  - intros H.
    assert (G : regular a -> (match smallest (records a) with Some n => if n =? max_ttl then Some (negative g) else Some n | None => Some (negative g) end) = Some b -> unlimited g a b).
    { intros Rg E. destruct (smallest (records a)) as [n|] eqn:S.
      - destruct (N.eqb_spec n max_ttl) as [->|Ne]; injection E as <-.
        + apply Kept_negative; [exact Rg|]. intros n (E & Ne). rewrite S in E. injection E as <-. apply Ne. reflexivity.
        + apply Kept_ttl; [exact Rg|]. split; [exact S|exact Ne].
      - injection E as <-. apply Kept_negative; [exact Rg|]. intros n (E & _). congruence. }
    destruct (m_rcode a) as [|p] eqn:Er; [apply G; [unfold regular; rewrite Er; cbn; auto|exact H]|].
    destruct p as [[[]|[]|]|[[]|[]|]|]; try discriminate; try (apply G; [unfold regular; rewrite Er; cbn; tauto|exact H]).
    injection H as <-. apply Kept_servfail. exact Er.
  - intros H. inversion H as [n Rg (S & Ne) E|Rg No E|Er E]; subst.
    + rewrite S. replace (b =? max_ttl) with false by (symmetry; apply N.eqb_neq; exact Ne). unfold regular in Rg. cbn in Rg. destruct Rg as [<-|[<-|[<-|[<-|[<-|[]]]]]]; reflexivity.
    + assert (S : match smallest (records a) with Some n => if n =? max_ttl then Some (negative g) else Some n | None => Some (negative g) end = Some (negative g)).
      { destruct (smallest (records a)) as [n|] eqn:S; [|reflexivity]. destruct (N.eqb_spec n max_ttl) as [|Ne]; [reflexivity|]. exfalso. apply (No n). split; [exact S|exact Ne]. }
      unfold regular in Rg. cbn in Rg. destruct Rg as [<-|[<-|[<-|[<-|[<-|[]]]]]]; exact S.
    + rewrite Er. reflexivity.
Qed.
Lemma code_small g a b : unlimited g a b -> (- 2 ^ 63 <= Z.of_N (m_rcode a) < 2 ^ 63)%Z.
Proof. intros H. assert (E : m_rcode a <= 5). { inversion H as [n Rg H1 H2|Rg H1 H2|Er H1]; [| |rewrite Er; discriminate]; unfold regular in Rg; cbn in Rg; destruct Rg as [<-|[<-|[<-|[<-|[<-|[]]]]]]; discriminate. } lia. Qed.
Lemma lifetime_kept g m a n : codes (c_rcodeMax g) (fun _ => None) = Some m -> lifetime (opts g m) a = Some n -> kept g a n.
Proof.
  intros C. unfold lifetime, kept. destruct (m_tc a); [discriminate|]. destruct (base_lifetime (opts g m) a) as [b|] eqn:B; [|discriminate].
  apply base_iff in B. cbn [o_rcodemax opts]. intros E. injection E as <-. split; [reflexivity|]. exists b. split; [exact B|].
  destruct (codes_value _ _ _ C _ (code_small _ _ _ B)) as [(v & L & ->)|(No & ->)]; [left; exists v; split; [exact L|reflexivity]|right; split; [exact No|reflexivity]].
Qed.
Lemma kept_some g m a n : codes (c_rcodeMax g) (fun _ => None) = Some m -> kept g a n -> lifetime (opts g m) a <> None.
Proof. intros C (T & b & B & _). apply (base_iff g m) in B. unfold lifetime. rewrite T, B. discriminate. Qed.
Lemma kept_lifetime g m a n : codes (c_rcodeMax g) (fun _ => None) = Some m -> unambiguous g -> kept g a n -> lifetime (opts g m) a = Some n.
Proof.
  intros C U (T & b & B & K). unfold lifetime. rewrite T. pose proof B as B'. apply (base_iff g m) in B'. rewrite B'. cbn [o_rcodemax opts]. f_equal.
  destruct (codes_value _ _ _ C _ (code_small _ _ _ B)) as [(v & L & ->)|(No & ->)].
  - destruct K as [(v' & L' & ->)|(No & _)]; [|exfalso; exact (No v L)]. rewrite (U _ _ _ L L'). reflexivity.
  - destruct K as [(v' & L' & _)|(_ & ->)]; [exfalso; exact (No _ L')|reflexivity].
Qed.
End W.
