From Verif Require Import Base Bytes Dns Blob_model Cache_model Redis_model Prefetch_model Prefetch_spec.
From Coq Require Import ZifyBool ZifyNat ZifyN.
Local Open Scope N_scope.

Lemma lookup_in {A} k (l : list (string * A)) a : lookup k l = Some a -> In (k, a) l.
Proof. induction l as [|[k' a'] l IH]; [discriminate|]. cbn. destruct (String.eqb_spec k k') as [->|]; [intros H; injection H as ->; left; reflexivity|right; auto]. Qed.
Lemma put_in {A} k (a : A) l k' a' : In (k', a') (put k a l) -> (k' = k /\ a' = a) \/ In (k', a') l.
Proof. intros [H|H]; [injection H as -> ->; auto|]. apply filter_In in H. right. apply H. Qed.
Lemma set_nth_length {A} n (a : A) l : length (set_nth n a l) = length l.
Proof. revert n. induction l as [|x l IH]; intros [|n]; cbn; auto. Qed.
Lemma set_nth_get {A} n (a : A) l i th : nth_error (set_nth n a l) i = Some th -> (i = n /\ th = a) \/ (i <> n /\ nth_error l i = Some th).
Proof.
  revert n i. induction l as [|x l IH]; intros [|n] [|i]; cbn; intros H; try discriminate; try (right; split; [lia|exact H]; fail).
  - injection H as ->. left. auto.
  - destruct (IH _ _ H) as [[-> ->]|[N H']]; [left; auto|right; split; [lia|exact H']].
Qed.
Lemma set_nth_nth n a l v : nth v (set_nth n a l) 0 = if Nat.eqb v n && Nat.ltb n (length l) then a else nth v l 0.
Proof.
  revert n v. induction l as [|x l IH]; intros [|n] [|v]; cbn [set_nth nth length]; try reflexivity.
  - rewrite andb_false_r. reflexivity.
  - change (Nat.eqb (S v) (S n)) with (Nat.eqb v n). rewrite IH. destruct (Nat.ltb_spec n (length l)), (Nat.ltb_spec (S n) (S (length l))); try lia; reflexivity.
Qed.

Fixpoint adds (v : nat) (l : list event) : list (nat * Z) :=
  match l with
  | [] => []
  | Counted i _ v' t :: l' => if Nat.eqb v v' then (i, t) :: adds v l' else adds v l'
  | _ :: l' => adds v l'
  end.
Lemma adds_in v l i t : In (i, t) (adds v l) -> exists k, In (Counted i k v t) l.
Proof.
  induction l as [|e l IH]; [intros []|]. destruct e; cbn [adds]; try (intros H; destruct (IH H) as [k' ?]; exists k'; right; assumption).
  destruct (Nat.eqb_spec v v0) as [->|]; [intros [H|H]; [injection H as -> ->; eexists; left; reflexivity|]|intros H]; destruct (IH H) as [k' ?]; exists k'; right; assumption.
Qed.

Section INV.
Variable key : msg -> option string.
Variables (window : Z) (threshold : N) (slack delay : Z).
Hypotheses (W : (0 <= window)%Z) (SL : (0 <= slack)%Z) (DL : (0 <= delay)%Z).
Variable R : msg -> msg -> Prop.
Hypotheses (RR : forall q, R q q) (RT : forall a b c, R a b -> R b c -> R a c).
Notation gap := (window + slack + 2 * delay)%Z.

Definition recent (lg : list event) (t : Z) (v : nat) : Prop := forall i h l, adds v lg = (i, h) :: l -> (t <= h)%Z.
Definition id_of (e : event) : option nat := match e with Ask i _ | Answer i _ | Counted i _ _ _ | Returned i _ => Some i | Prefetched _ _ _ => None end.
Definition qok (lg : list event) (k : string) (q : msg) : Prop :=
  exists i q0 q1 v t, In (Ask i q0) lg /\ R q0 q1 /\ key q1 = Some k /\ R q1 q /\ In (Counted i k v t) lg.
Definition asked (lg : list event) (i : nat) (q : msg) : Prop := exists q0, In (Ask i q0) lg /\ R q0 q.
Definition no_counted (lg : list event) (i : nat) : Prop := forall k v t, ~ In (Counted i k v t) lg.
Definition no_returned (lg : list event) (i : nat) : Prop := forall r, ~ In (Returned i r) lg.
Definition no_answer (lg : list event) (i : nat) : Prop := forall r, ~ In (Answer i r) lg.
Section ENV.
Variables (now : Z) (n : nat) (own : nat -> string) (lg : list event).
Definition ctr_ok (k : string) (v : nat) : Prop := (v < n)%nat /\ own v = k.
Definition stage_ok (i : nat) (k : string) (t0 : Z) (p : stage) : Prop :=
  match p with
  | SGet => no_counted lg i
  | SAdd v => no_counted lg i /\ ctr_ok k v /\ recent lg (t0 - window - slack - delay) v
  | SPut v | SLoad v => ctr_ok k v /\ adds v lg <> [] /\ recent lg t0 v /\ exists t, In (Counted i k v t) lg
  | SCache => exists v t, In (Counted i k v t) lg
  end.
Definition thr_ok (i : nat) (th : thread) : Prop :=
  match th with
  | Wait q => no_counted lg i /\ no_answer lg i /\ no_returned lg i /\ asked lg i q
  | Run p q k ttl r t0 => (t0 <= now <= t0 + delay)%Z /\ no_returned lg i /\ asked lg i q /\ key q = Some k /\ In (Answer i r) lg /\ usable r = Some ttl /\ stage_ok i k t0 p
  | Done => True
  | CLoad k v t0 => (t0 <= now <= t0 + delay)%Z /\ ctr_ok k v /\ adds v lg <> [] /\ recent lg (t0 - window - slack - delay) v
  | CQuery k v t0 => (t0 <= now <= t0 + delay)%Z /\ ctr_ok k v /\ adds v lg <> [] /\ recent lg (t0 - window - slack - delay) v /\ threshold <= N.of_nat (length (adds v lg))
  | CWait k q => qok lg k q
  end.
Definition name_ok (k : string) (v : nat) (e : Z) : Prop := ctr_ok k v /\ adds v lg <> [] /\ recent lg (e - window - delay) v /\ (now <= e + slack)%Z /\ (e <= now + window)%Z.
Definition chain_ok : Prop := forall v i h l, adds v lg = (i, h) :: l -> (h <= now)%Z /\ within gap h l.
End ENV.
Definition ev_ok (e : event) (b : list event) : Prop :=
  match e with
  | Ask i q => forall q', ~ In (Ask i q') b
  | Answer i r => no_answer b i /\ exists q, In (Ask i q) b
  | Counted i k v t => no_counted b i /\ exists q0 q1 r ttl, In (Ask i q0) b /\ R q0 q1 /\ key q1 = Some k /\ In (Answer i r) b /\ usable r = Some ttl
  | Returned i r => no_returned b i /\ In (Answer i r) b
  | Prefetched k q t => (exists l, threshold <= N.of_nat (length l) /\ NoDup (map fst l) /\ within gap t l /\ forall i t', In (i, t') l -> exists v, In (Counted i k v t') b) /\ qok b k q
  end.
Definition log_ok (lg : list event) : Prop := forall a e b, lg = a ++ e :: b -> ev_ok e b.
Record Inv (own : nat -> string) (s : state) : Prop := {
  i_names : forall k v e, In (k, (v, e)) (s_names s) -> name_ok (s_now s) (length (s_ctrs s)) own (s_log s) k v e;
  i_thr : forall i th, nth_error (s_threads s) i = Some th -> thr_ok (s_now s) (length (s_ctrs s)) own (s_log s) i th;
  i_ctr : forall v, nth v (s_ctrs s) 0 <= N.of_nat (length (adds v (s_log s)));
  i_own : forall i k v t, In (Counted i k v t) (s_log s) -> ctr_ok (length (s_ctrs s)) own k v;
  i_chain : chain_ok (s_now s) (s_log s);
  i_ids : forall v, NoDup (map fst (adds v (s_log s)));
  i_small : forall e i, In e (s_log s) -> id_of e = Some i -> (i < length (s_threads s))%nat;
  i_q : forall k q e, In (k, (q, e)) (s_queries s) -> qok (s_log s) k q;
  i_log : log_ok (s_log s) }.

(** Adding an event *)
Lemma log_cons e lg : ev_ok e lg -> log_ok lg -> log_ok (e :: lg).
Proof. intros E L a e' b H. destruct a as [|x a]; cbn in H; injection H as -> H; [subst; exact E|]. exact (L _ _ _ H). Qed.
Lemma qok_cons e lg k q : qok lg k q -> qok (e :: lg) k q.
Proof. intros (i & q0 & q1 & v & t & A & B & C & D & E). exists i, q0, q1, v, t. repeat split; try assumption; right; assumption. Qed.
Definition plain (e : event) : Prop := match e with Counted _ _ _ _ => False | _ => True end.
Lemma adds_plain e lg v : plain e -> adds v (e :: lg) = adds v lg.
Proof. destruct e; intros []; reflexivity. Qed.
Lemma adds_cases e lg v : adds v (e :: lg) = adds v lg \/ exists i k t, e = Counted i k v t /\ adds v (e :: lg) = (i, t) :: adds v lg.
Proof. destruct e; try (left; reflexivity). cbn [adds]. destruct (Nat.eqb_spec v v0) as [->|]; [right; eauto 6|left; reflexivity]. Qed.
Definition at_now (now : Z) (e : event) : Prop := match e with Counted _ _ _ t => t = now | _ => True end.
Lemma recent_cons e now lg t v : (t <= now)%Z -> at_now now e -> recent lg t v -> recent (e :: lg) t v.
Proof.
  intros T AN H i h l E. destruct (adds_cases e lg v) as [Q|(j & k & t' & -> & Q)]; rewrite Q in E; [exact (H _ _ _ E)|]. injection E as -> -> _. cbn in AN. lia.
Qed.
Lemma adds_ne e lg v : adds v lg <> [] -> adds v (e :: lg) <> [].
Proof. destruct (adds_cases e lg v) as [Q|(j & k & t' & -> & Q)]; rewrite Q; [auto|discriminate]. Qed.
Lemma adds_longer e lg v : (length (adds v lg) <= length (adds v (e :: lg)))%nat.
Proof. destruct (adds_cases e lg v) as [Q|(j & k & t' & -> & Q)]; rewrite Q; cbn; lia. Qed.
Lemma not_in_cons {A} (a b : A) l : a <> b -> ~ In a l -> ~ In a (b :: l).
Proof. intros N H [E|I]; [subst; contradiction|contradiction]. Qed.
Lemma thr_cons e now n own lg i th : at_now now e -> id_of e <> Some i -> thr_ok now n own lg i th -> thr_ok now n own (e :: lg) i th.
Proof.
  intros AN ID. assert (C : no_counted lg i -> no_counted (e :: lg) i) by (intros H k v t; apply not_in_cons; [intros <-; apply ID; reflexivity|apply H]).
  assert (D : no_returned lg i -> no_returned (e :: lg) i) by (intros H r; apply not_in_cons; [intros <-; apply ID; reflexivity|apply H]).
  assert (E : no_answer lg i -> no_answer (e :: lg) i) by (intros H r; apply not_in_cons; [intros <-; apply ID; reflexivity|apply H]).
  assert (F : forall q, asked lg i q -> asked (e :: lg) i q) by (intros q (q0 & A & B); exists q0; split; [right; exact A|exact B]).
  destruct th as [q|p q k ttl r t0| |k v t0|k v t0|k q]; cbn [thr_ok].
  - intros (H1 & H2 & H3 & H4). auto.
  - intros (T & H1 & H2 & H3 & H4 & H5 & H6). repeat (split; [solve [auto|right; assumption]|]). destruct p as [|v|v|v|]; cbn [stage_ok] in *.
    + auto.
    + destruct H6 as (A & B & G). split; [auto|]. split; [auto|]. apply (recent_cons _ now); [lia|assumption|assumption].
    + destruct H6 as (A & B & G & t & I). split; [auto|]. split; [apply adds_ne, B|]. split; [apply (recent_cons _ now); [lia|assumption|assumption]|]. exists t. right. exact I.
    + destruct H6 as (A & B & G & t & I). split; [auto|]. split; [apply adds_ne, B|]. split; [apply (recent_cons _ now); [lia|assumption|assumption]|]. exists t. right. exact I.
    + destruct H6 as (v & t & I). exists v, t. right. exact I.
  - auto.
  - intros (T & A & B & G). split; [auto|]. split; [auto|]. split; [apply adds_ne, B|]. apply (recent_cons _ now); [lia|assumption|assumption].
  - intros (T & A & B & G & L). split; [auto|]. split; [auto|]. split; [apply adds_ne, B|]. split; [apply (recent_cons _ now); [lia|assumption|assumption]|]. pose proof (adds_longer e lg v). lia.
  - apply qok_cons.
Qed.
Lemma name_cons e now n own lg k v x : at_now now e -> name_ok now n own lg k v x -> name_ok now n own (e :: lg) k v x.
Proof. intros AN (A & B & C & D & E). repeat split; try assumption; try apply A; [apply adds_ne, B|]. apply (recent_cons _ now); [lia|assumption|assumption]. Qed.
Lemma thr_grow now n own lg i th n' own' : (n <= n')%nat -> (forall v, (v < n)%nat -> own' v = own v) -> thr_ok now n own lg i th -> thr_ok now n' own' lg i th.
Proof.
  intros L O. assert (C : forall k v, ctr_ok n own k v -> ctr_ok n' own' k v) by (intros k v [A B]; split; [lia|rewrite O by exact A; exact B]).
  destruct th as [q|p q k ttl r t0| |k v t0|k v t0|k q]; cbn [thr_ok]; auto.
  - intros (T & H1 & H2 & H3 & H4 & H5 & H6). repeat (split; [assumption|]). destruct p; cbn [stage_ok] in *; intuition.
  - intuition.
  - intuition.
Qed.

(** An event other than Counted *)
Lemma inv_log e own s : plain e -> ev_ok e (s_log s) -> (forall i, id_of e = Some i -> (i < length (s_threads s))%nat /\ forall th, nth_error (s_threads s) i = Some th -> thr_ok (s_now s) (length (s_ctrs s)) own (e :: s_log s) i th) ->
  Inv own s -> Inv own (log e s).
Proof.
  intros P E TH I. assert (AN : at_now (s_now s) e) by (destruct e; exact Logic.I || destruct P). destruct I as [I1 I2 I3 I4 I5 I6 I7 I8 I9]. constructor; cbn [s_now s_ctrs s_names s_queries s_threads s_log log].
  - intros k v x H. apply name_cons; auto.
  - intros i th H. destruct (id_of e) as [j|] eqn:IDE.
    + destruct (Nat.eq_dec i j) as [->|N]; [apply (TH _ eq_refl), H|]. apply thr_cons; [exact AN|congruence|auto].
    + apply thr_cons; [exact AN|congruence|auto].
  - intros v. rewrite adds_plain by exact P. apply I3.
  - intros i k v t [H|H]; [subst e; destruct P|eauto].
  - intros v i h l H. rewrite adds_plain in H by exact P. eapply I5; eauto.
  - intros v. rewrite adds_plain by exact P. apply I6.
  - intros e' i [<-|H] ID; [apply (TH _ ID)|eauto].
  - intros k q x H. apply qok_cons. eauto.
  - apply log_cons; assumption.
Qed.
Lemma inv_set own s i th : (forall th', nth_error (s_threads s) i = Some th' -> thr_ok (s_now s) (length (s_ctrs s)) own (s_log s) i th) -> Inv own s -> Inv own (set_thread i th s).
Proof.
  intros T [I1 I2 I3 I4 I5 I6 I7 I8 I9]. constructor; cbn [s_now s_ctrs s_names s_queries s_threads s_log set_thread]; try assumption.
  - intros j th' H. pose proof H as H'. apply set_nth_get in H. destruct H as [[-> ->]|[N H]]; [|auto]. destruct (nth_error (s_threads s) i) as [x|] eqn:E; [exact (T _ eq_refl)|]. exfalso. apply nth_error_None in E. assert (nth_error (set_nth i th (s_threads s)) i <> None) by congruence. apply nth_error_Some in H. rewrite set_nth_length in H. lia.
  - intros e j H ID. rewrite set_nth_length. eauto.
Qed.
Lemma inv_add own s th : thr_ok (s_now s) (length (s_ctrs s)) own (s_log s) (length (s_threads s)) th -> Inv own s -> Inv own (add_thread th s).
Proof.
  intros T [I1 I2 I3 I4 I5 I6 I7 I8 I9]. constructor; cbn [s_now s_ctrs s_names s_queries s_threads s_log add_thread]; try assumption.
  - intros j th' H. destruct (Nat.lt_ge_cases j (length (s_threads s))) as [L|L]; [rewrite nth_error_app1 in H by exact L; auto|]. rewrite nth_error_app2 in H by exact L. destruct (j - length (s_threads s))%nat as [|m] eqn:E; [|destruct m; discriminate H]. injection H as <-. replace j with (length (s_threads s)) by lia. exact T.
  - intros e j H ID. rewrite app_length. cbn. specialize (I7 _ _ H ID). lia.
Qed.
Lemma inv_queries own s c : (forall k q e, In (k, (q, e)) c -> qok (s_log s) k q) -> Inv own s -> Inv own (set_queries c s).
Proof. intros H [I1 I2 I3 I4 I5 I6 I7 I8 I9]. constructor; cbn [s_now s_ctrs s_names s_queries s_threads s_log set_queries]; assumption. Qed.
Lemma inv_names own s c : (forall k v e, In (k, (v, e)) c -> name_ok (s_now s) (length (s_ctrs s)) own (s_log s) k v e) -> Inv own s -> Inv own (set_names c s).
Proof. intros H [I1 I2 I3 I4 I5 I6 I7 I8 I9]. constructor; cbn [s_now s_ctrs s_names s_queries s_threads s_log set_names]; assumption. Qed.

Lemma fresh_adds own s : Inv own s -> adds (length (s_ctrs s)) (s_log s) = [].
Proof.
  intros I. destruct (adds (length (s_ctrs s)) (s_log s)) as [|[i t] l] eqn:E; [reflexivity|]. exfalso. destruct (adds_in (length (s_ctrs s)) (s_log s) i t) as [k H]; [rewrite E; left; reflexivity|]. destruct (i_own _ _ I _ _ _ _ H). lia.
Qed.
Lemma inv_new own s k : Inv own s -> Inv (fun v => if Nat.eqb v (length (s_ctrs s)) then k else own v) (set_ctrs (s_ctrs s ++ [0]) s).
Proof.
  intros I. set (own' := fun v => _). assert (O : forall v, (v < length (s_ctrs s))%nat -> own' v = own v) by (intros v H; unfold own'; destruct (Nat.eqb_spec v (length (s_ctrs s))); [lia|reflexivity]).
  assert (C : forall k0 v, ctr_ok (length (s_ctrs s)) own k0 v -> ctr_ok (length (s_ctrs s ++ [0])) own' k0 v) by (intros k0 v [A B]; rewrite app_length; split; [lia|rewrite O by exact A; exact B]).
  destruct I as [I1 I2 I3 I4 I5 I6 I7 I8 I9]. constructor; cbn [s_now s_ctrs s_names s_queries s_threads s_log set_ctrs]; try assumption.
  - intros k0 v e H. destruct (I1 _ _ _ H) as (A & B). split; auto.
  - intros i th H. apply (thr_grow _ (length (s_ctrs s)) own); [rewrite app_length; lia|exact O|auto].
  - intros v. specialize (I3 v). destruct (Nat.lt_ge_cases v (length (s_ctrs s))) as [L|L]; [rewrite app_nth1 by exact L; exact I3|]. rewrite app_nth2 by exact L. destruct (v - length (s_ctrs s))%nat as [|[|m]]; cbn; lia.
  - intros i k0 v t H. apply C. eauto.
Qed.

Definition changes_ok (l : list action) : Prop := forall a, In a l -> forall q, R q (change a q).

Lemma inv_run own s i th s' : nth_error (s_threads s) i = Some th -> run window threshold i th s = Some s' -> Inv own s -> exists own', Inv own' s'.
Proof.
  intros H E I. pose proof (i_thr _ _ I _ _ H) as T. assert (LT : (i < length (s_threads s))%nat) by (apply nth_error_Some; congruence).
  destruct th as [q|p q k ttl r t0| |k v t0|k v t0|k q]; try discriminate E.
  - destruct p as [|v|v|v|]; cbn [run] in E; cbn [thr_ok stage_ok] in T; destruct T as (T1 & T2 & T3 & T4 & T5 & T6 & T7).
    + destruct (lookup k (s_names s)) as [[v e]|] eqn:LK.
      * injection E as <-. exists own. apply inv_set; [|exact I]. intros th' H'. apply lookup_in in LK. destruct (i_names _ _ I _ _ _ LK) as (N1 & N2 & N3 & N4 & N5). cbn [thr_ok stage_ok]. repeat (split; [assumption|]).
        intros j h l A. specialize (N3 _ _ _ A). destruct (i_chain _ _ I _ _ _ _ A). enough (t0 <= e + slack)%Z by lia. lia.
      * injection E as <-. eexists. apply inv_set; [|apply inv_new with (k := k), I]. cbn [s_now s_ctrs s_names s_queries s_threads s_log set_ctrs]. intros th' H'. cbn [thr_ok stage_ok]. repeat (split; [assumption|]). split; [split; [rewrite app_length; cbn; lia|rewrite Nat.eqb_refl; reflexivity]|].
        intros j h l A. rewrite (fresh_adds _ _ I) in A. discriminate A.
    + injection E as <-. exists own. destruct T7 as (NC & CO & RC). pose proof CO as [VL OW].
      assert (AV : adds v (Counted i k v (s_now s) :: s_log s) = (i, s_now s) :: adds v (s_log s)) by (cbn [adds]; rewrite Nat.eqb_refl; reflexivity).
      assert (AO : forall w, w <> v -> adds w (Counted i k v (s_now s) :: s_log s) = adds w (s_log s)) by (intros w N; cbn [adds]; destruct (Nat.eqb_spec w v); [contradiction|reflexivity]).
      assert (AN : at_now (s_now s) (Counted i k v (s_now s))) by reflexivity.
      destruct I as [I1 I2 I3 I4 I5 I6 I7 I8 I9]. constructor; cbn [s_now s_ctrs s_names s_queries s_threads s_log log set_thread set_ctrs]; rewrite ?set_nth_length.
      * intros k0 v0 e0 X. apply name_cons; [exact AN|auto].
      * intros j th X. apply set_nth_get in X. destruct X as [[-> ->]|[N X]].
        -- cbn [thr_ok stage_ok]. split; [lia|]. split; [intros r0 [Y|Y]; [discriminate Y|exact (T2 _ Y)]|]. split; [destruct T3 as (q0 & Q1 & Q2); exists q0; split; [right; exact Q1|exact Q2]|]. split; [exact T4|]. split; [right; exact T5|]. split; [exact T6|]. split; [exact CO|]. rewrite AV. split; [discriminate|].
           split; [intros j h l Q; rewrite AV in Q; injection Q as _ <- _; lia|]. exists (s_now s). left. reflexivity.
        -- apply thr_cons; [exact AN|cbn; congruence|auto].
      * intros w. rewrite set_nth_nth. destruct (Nat.eqb_spec w v) as [->|N]; cbn [andb].
        -- rewrite AV. destruct (Nat.ltb_spec v (length (s_ctrs s))); [|lia]. specialize (I3 v). cbn [length]. pose proof (N.mod_le (nth v (s_ctrs s) 0 + 1) (2 ^ 64)) as M. assert (2 ^ 64 <> 0) by discriminate. specialize (M H1). revert M. generalize ((nth v (s_ctrs s) 0 + 1) mod 2 ^ 64). intros x M. lia.
        -- rewrite AO by exact N. apply I3.
      * intros j k0 v0 t [X|X]; [injection X as -> -> -> _; exact CO|eauto].
      * intros w j h l X. destruct (Nat.eq_dec w v) as [->|N].
        -- rewrite AV in X. injection X as <- <- <-. split; [lia|]. destruct (adds v (s_log s)) as [|[j h] l] eqn:A; [exact Logic.I|]. destruct (I5 _ _ _ _ A) as [B1 B2]. split; [|exact B2]. specialize (RC _ _ _ A). lia.
        -- rewrite AO in X by exact N. eapply I5; eauto.
      * intros w. destruct (Nat.eq_dec w v) as [->|N]; [|rewrite AO by exact N; apply I6]. rewrite AV. cbn [map fst]. constructor; [|apply I6]. intros X. apply in_map_iff in X. destruct X as ([j t] & Y & X). cbn in Y. subst j. destruct (adds_in _ _ _ _ X) as [k0 Z]. exact (NC _ _ _ Z).
      * intros e j [<-|X] ID; [injection ID as <-; exact LT|eauto].
      * intros k0 q0 e X. apply qok_cons. eauto.
      * apply log_cons; [|assumption]. cbn [ev_ok]. split; [exact NC|]. destruct T3 as (q0 & Q1 & Q2). exists q0, q, r, ttl. auto.
    + injection E as <-. exists own. destruct T7 as (CO & NE & RC & CT). apply inv_set; cbn [s_now s_ctrs s_names s_queries s_threads s_log set_names].
      * intros th' _. cbn [thr_ok stage_ok]. repeat (split; [assumption|]). assumption.
      * apply inv_names; [|exact I]. intros k0 v0 e0 X. apply put_in in X. destruct X as [[-> X]|X]; [|exact (i_names _ _ I _ _ _ X)]. injection X as -> ->. split; [exact CO|]. split; [exact NE|]. split; [|lia]. intros j h l A. specialize (RC _ _ _ A). lia.
    + destruct (threshold <=? nth v (s_ctrs s) 0) eqn:TH; injection E as <-; exists own; destruct T7 as (CO & NE & RC & t & CT).
      * apply inv_set; [|exact I]. intros th' _. cbn [thr_ok stage_ok]. repeat (split; [assumption|]). eauto.
      * apply inv_log; [exact Logic.I| | |apply inv_set; [intros ? _; exact Logic.I|exact I]]; cbn [s_now s_ctrs s_names s_queries s_threads s_log set_thread].
        -- split; assumption.
        -- intros j X. injection X as <-. rewrite set_nth_length. split; [exact LT|]. intros th X. apply set_nth_get in X. destruct X as [[_ ->]|[N _]]; [exact Logic.I|contradiction].
    + injection E as <-. exists own. destruct T7 as (v & t & CT).
      apply inv_log; [exact Logic.I| | |apply inv_set; [intros ? _; exact Logic.I|apply inv_queries; [|exact I]]]; cbn [s_now s_ctrs s_names s_queries s_threads s_log set_thread set_queries].
      * split; assumption.
      * intros j X. injection X as <-. rewrite set_nth_length. split; [exact LT|]. intros th X. apply set_nth_get in X. destruct X as [[_ ->]|[N _]]; [exact Logic.I|contradiction].
      * intros k0 q0 e0 X. apply put_in in X. destruct X as [[-> X]|X]; [|exact (i_q _ _ I _ _ _ X)]. injection X as -> ->. destruct T3 as (q1 & Q1 & Q2). exists i, q1, q, v, t. auto.
  - cbn [run] in E. injection E as <-. exists own. apply inv_set; [|exact I]. intros th' _. destruct (nth v (s_ctrs s) 0 <? threshold) eqn:TH; [exact Logic.I|]. cbn [thr_ok] in *. destruct T as (T1 & T2 & T3 & T4). repeat (split; [assumption|]). pose proof (i_ctr _ _ I v). lia.
  - cbn [run] in E. cbn [thr_ok] in T. destruct T as (T1 & T2 & T3 & T4 & T5). destruct (lookup k (s_queries s)) as [[q e]|] eqn:LK; injection E as <-; exists own; [|apply inv_set; [intros ? _; exact Logic.I|exact I]].
    apply lookup_in in LK. pose proof (i_q _ _ I _ _ _ LK) as Q. apply inv_log; [exact Logic.I| |intros j X; discriminate X|apply inv_set; [intros ? _; exact Q|exact I]]. cbn [s_now s_ctrs s_names s_queries s_threads s_log set_thread ev_ok]. split; [|exact Q].
    exists (adds v (s_log s)). split; [exact T5|]. split; [apply (i_ids _ _ I)|]. split.
    + destruct (adds v (s_log s)) as [|[j h] l] eqn:A; [exact Logic.I|]. destruct (i_chain _ _ I _ _ _ _ A) as [B1 B2]. split; [|exact B2]. specialize (T4 _ _ _ A). lia.
    + intros j t X. destruct (adds_in _ _ _ _ X) as [k0 Y]. exists v. destruct (i_own _ _ I _ _ _ _ Y) as [_ O]. destruct T2 as [_ O']. congruence.
Qed.
Lemma inv_act own s a s' : (forall q, R q (change a q)) -> act key window threshold slack delay a s = Some s' -> Inv own s -> exists own', Inv own' s'.
Proof.
  intros RF E I. destruct a as [q|i r f|i|k|i r f|k f|f g|t]; cbn [act change] in *.
  - injection E as <-. exists own.
    assert (SM : forall e, id_of e = Some (length (s_threads s)) -> ~ In e (s_log s)) by (intros e ID X; pose proof (i_small _ _ I _ _ X ID); lia).
    set (m := length (s_threads s)) in *. destruct I as [I1 I2 I3 I4 I5 I6 I7 I8 I9]. constructor; cbn [s_now s_ctrs s_names s_queries s_threads s_log log add_thread]; try assumption.
    + intros j th H. destruct (Nat.lt_ge_cases j m) as [L|L].
      * rewrite nth_error_app1 in H by exact L. apply thr_cons; [exact Logic.I|cbn; congruence || (intros X; injection X as X; lia)|auto].
      * rewrite nth_error_app2 in H by exact L. destruct (j - length (s_threads s))%nat as [|x] eqn:E; [|destruct x; discriminate H]. injection H as <-. replace j with m by (unfold m in *; lia).
        cbn [thr_ok]. split; [intros k v t; apply not_in_cons; [discriminate|apply SM; reflexivity]|]. split; [intros r; apply not_in_cons; [discriminate|apply SM; reflexivity]|]. split; [intros r; apply not_in_cons; [discriminate|apply SM; reflexivity]|]. exists q. split; [left; reflexivity|apply RR].
    + intros i k v t [X|X]; [discriminate X|eauto].
    + intros e i [<-|X] ID; rewrite app_length; cbn; [injection ID as <-; unfold m; lia|]. specialize (I7 _ _ X ID). lia.
    + intros k q0 x H. apply qok_cons. eauto.
    + apply log_cons; [|assumption]. intros q'. apply SM. reflexivity.
  - destruct (nth_error (s_threads s) i) as [[q|p q k ttl r0 t0| |k v t0|k v t0|k q]|] eqn:H; try discriminate E. pose proof (i_thr _ _ I _ _ H) as (T1 & T2 & T3 & q0 & T4 & T5). assert (LT : (i < length (s_threads s))%nat) by (apply nth_error_Some; congruence).
    destruct (usable r) as [ttl|] eqn:U.
    + destruct (key (f q)) as [k|] eqn:K; [|discriminate E]. injection E as <-. exists own.
      assert (A : Inv own (log (Answer i r) (set_thread i Done s))).
      { apply inv_log; [exact Logic.I|split; [exact T2|eauto]| |apply inv_set; [intros ? _; exact Logic.I|exact I]]. cbn [s_now s_ctrs s_names s_queries s_threads s_log set_thread]. intros j X. injection X as <-. rewrite set_nth_length. split; [exact LT|]. intros th X. apply set_nth_get in X. destruct X as [[_ ->]|[N _]]; [exact Logic.I|contradiction]. }
      assert (EQ : log (Answer i r) (set_thread i (Run SGet (f q) k ttl r (s_now s)) s) = set_thread i (Run SGet (f q) k ttl r (s_now s)) (log (Answer i r) (set_thread i Done s))).
      { unfold log, set_thread. cbn [s_now s_ctrs s_names s_queries s_threads s_log]. f_equal. clear. revert i. induction (s_threads s) as [|x l IH]; intros [|i]; cbn; [reflexivity|reflexivity|reflexivity|]. f_equal. apply IH. }
      rewrite EQ. apply inv_set; [|exact A]. intros th' _. cbn [s_now s_ctrs s_names s_queries s_threads s_log set_thread log thr_ok stage_ok]. split; [lia|]. split; [intros r'; apply not_in_cons; [discriminate|apply T3]|]. split; [exists q0; split; [right; exact T4|apply RT with q; auto]|]. split; [exact K|]. split; [left; reflexivity|]. split; [exact U|]. intros k' v t. apply not_in_cons; [discriminate|apply T1].
    + injection E as <-. exists own. apply inv_log; [exact Logic.I| | |].
      * split; [|left; reflexivity]. intros r'. apply not_in_cons; [discriminate|apply T3].
      * cbn [s_now s_ctrs s_names s_queries s_threads s_log set_thread log]. intros j X. injection X as <-. rewrite set_nth_length. split; [exact LT|]. intros th X. apply set_nth_get in X. destruct X as [[_ ->]|[N _]]; [exact Logic.I|contradiction].
      * apply inv_log; [exact Logic.I|split; [exact T2|eauto]| |apply inv_set; [intros ? _; exact Logic.I|exact I]]. cbn [s_now s_ctrs s_names s_queries s_threads s_log set_thread]. intros j X. injection X as <-. rewrite set_nth_length. split; [exact LT|]. intros th X. apply set_nth_get in X. destruct X as [[_ ->]|[N _]]; [exact Logic.I|contradiction].
  - destruct (nth_error (s_threads s) i) as [th|] eqn:H; [|discriminate E]. eapply inv_run; eauto.
  - destruct (lookup k (s_names s)) as [[v e]|] eqn:LK; injection E as <-; [|eauto]. exists own. apply inv_add; [|exact I]. apply lookup_in in LK. destruct (i_names _ _ I _ _ _ LK) as (N1 & N2 & N3 & N4 & N5). cbn [thr_ok]. split; [lia|]. split; [exact N1|]. split; [exact N2|]. intros j h l A. specialize (N3 _ _ _ A). lia.
  - destruct (nth_error (s_threads s) i) as [[q|p q k ttl r0 t0| |k v t0|k v t0|k q]|] eqn:H; try discriminate E. pose proof (i_thr _ _ I _ _ H) as T. cbn [thr_ok] in T. injection E as <-. exists own.
    assert (D : Inv own (set_thread i Done s)) by (apply inv_set; [intros ? _; exact Logic.I|exact I]). destruct (usable r) as [ttl|]; [|exact D]. apply inv_queries; [|exact D]. intros k0 q0 e0 X. apply put_in in X. destruct X as [[-> X]|X]; [|exact (i_q _ _ I _ _ _ X)]. injection X as -> ->.
    destruct T as (j & q1 & q2 & v & t & A & B & C & F & G). exists j, q1, q2, v, t. repeat split; try assumption. apply RT with q; auto.
  - injection E as <-. exists own. apply inv_queries; [|exact I]. intros k0 q0 e0 X. apply in_map_iff in X. destruct X as ([k1 [q1 e1]] & X & Y). pose proof (i_q _ _ I _ _ _ Y) as T. cbn in X. destruct (String.eqb k k1); injection X as -> <- <-; [|exact T].
    destruct T as (j & q2 & q3 & v & t & A & B & C & F & G). exists j, q2, q3, v, t. repeat split; try assumption. apply RT with q1; auto.
  - injection E as <-. exists own. apply inv_queries; [intros k0 q0 e0 X; apply filter_In in X; exact (i_q _ _ I _ _ _ (proj1 X))|]. apply inv_names; [|exact I]. intros k0 v0 e0 X. apply filter_In in X. exact (i_names _ _ I _ _ _ (proj1 X)).
  - destruct ((s_now s <=? t)%Z && in_time slack delay t s) eqn:C; [|discriminate E]. injection E as <-. exists own. apply andb_true_iff in C. destruct C as [C1 C2]. apply andb_true_iff in C2. destruct C2 as [C2 C3]. rewrite forallb_forall in C2, C3.
    destruct I as [I1 I2 I3 I4 I5 I6 I7 I8 I9]. constructor; cbn [s_now s_ctrs s_names s_queries s_threads s_log]; try assumption.
    + intros k v e X. destruct (I1 _ _ _ X) as (N1 & N2 & N3 & N4 & N5). specialize (C2 _ X). cbn in C2. repeat split; try assumption; try apply N1; lia.
    + intros i th X. specialize (I2 _ _ X). specialize (C3 _ (nth_error_In _ _ X)). destruct th as [q|p q k ttl r t0| |k v t0|k v t0|k q]; cbn [thr_ok] in *; try assumption.
      * destruct I2 as (A & B). split; [lia|exact B].
      * destruct I2 as (A & B). split; [lia|exact B].
      * destruct I2 as (A & B). split; [lia|exact B].
    + intros v i h l A. destruct (I5 _ _ _ _ A) as [B1 B2]. split; [lia|exact B2].
Qed.
Lemma inv_acts l : forall own s s', changes_ok l -> acts key window threshold slack delay l s = Some s' -> Inv own s -> exists own', Inv own' s'.
Proof.
  induction l as [|a l IH]; intros own s s' C E I; cbn in E; [injection E as <-; eauto|]. destruct (act key window threshold slack delay a s) as [s1|] eqn:A; [|discriminate E]. destruct (inv_act own s a s1) as [own1 I1]; [apply C; left; reflexivity|exact A|exact I|]. eapply IH; [|exact E|exact I1]. intros x X. apply C. right. exact X.
Qed.
Lemma inv_start t : Inv (fun _ => ""%string) (start t).
Proof.
  constructor; cbn; try tauto.
  - intros [|i] th H; discriminate H.
  - intros [|v]; cbn; lia.
  - intros v i h l H. discriminate H.
  - intros v. constructor.
  - intros [|x a] e b H; discriminate H.
Qed.
Lemma reach l t s : changes_ok l -> acts key window threshold slack delay l (start t) = Some s -> log_ok (s_log s).
Proof. intros C E. destruct (inv_acts l _ _ _ C E (inv_start t)) as [own I]. apply I. Qed.
End INV.
