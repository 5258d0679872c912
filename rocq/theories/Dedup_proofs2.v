(** Lemmas about request de-duplication: executions. *)
From Verif Require Import Base Bytes Net Dns Dedup_model Dedup_spec.
From Coq Require Import ZifyBool ZifyNat ZifyN.
Local Open Scope nat_scope.

Definition tid (e : devent) : nat := match e with DEnter t _ => t | DReply t _ => t | DRemove t => t | DWake t => t end.
(** The events of thread t *)
Definition evs (tr : trace) (t : nat) : trace := filter (fun x => Nat.eqb (tid (fst x)) t) tr.

Lemma evs_app a b t : evs (a ++ b) t = evs a t ++ evs b t. Proof. apply filter_app. Qed.
Lemma evs_snoc_same tr e o t : tid e = t -> evs (tr ++ [(e, o)]) t = evs tr t ++ [(e, o)].
Proof. intros <-. rewrite evs_app. unfold evs at 2. cbn [filter fst]. rewrite Nat.eqb_refl. reflexivity. Qed.
Lemma evs_snoc_other tr e o t : tid e <> t -> evs (tr ++ [(e, o)]) t = evs tr t.
Proof. intros H. rewrite evs_app. unfold evs at 2. cbn [filter fst]. apply Nat.eqb_neq in H. rewrite H. apply app_nil_r. Qed.
Lemma in_evs tr e o : In (e, o) tr <-> In (e, o) (evs tr (tid e)).
Proof. unfold evs. rewrite filter_In. cbn [fst]. rewrite Nat.eqb_refl. tauto. Qed.

(** t waits for or shares the request of l *)
Definition follows (s : dstate) (tr : trace) (t : nat) (q : msg) (l : nat) : Prop :=
  exists tr1 tr2 ql k, tr = tr1 ++ (DEnter t q, ONone) :: tr2 /\ in_progress tr1 l ql /\ dedup_key q = Some k /\ dedup_key ql = Some k /\
    (d_thread s l = DLead ql \/ exists r, d_answer s l = Some r).

Definition tinv (s : dstate) (tr : trace) (t : nat) : Prop :=
  match d_thread s t with
  | DIdle => evs tr t = []
  | DLead q => evs tr t = [(DEnter t q, OAsk q)] /\ exists k, dedup_key q = Some k /\ d_inflight s k = Some t
  | DClosed q r => evs tr t = [(DEnter t q, OAsk q); (DReply t r, ONone)] /\ d_answer s t = Some r /\
                   exists k, dedup_key q = Some k /\ d_inflight s k = Some t
  | DWait q l => evs tr t = [(DEnter t q, ONone)] /\ follows s tr t q l
  | DReturned q r =>
      (exists r0, evs tr t = [(DEnter t q, OAsk q); (DReply t r0, ONone); (DRemove t, OReturn r)] /\ r = own_copy q r0) \/
      (exists l r0, evs tr t = [(DEnter t q, ONone); (DWake t, OReturn r)] /\ r = own_copy q r0 /\ d_answer s l = Some r0 /\ follows s tr t q l)
  end.
Definition dinv (s : dstate) (tr : trace) : Prop :=
  (forall t, tinv s tr t) /\
  (forall k t, d_inflight s k = Some t -> exists q, dedup_key q = Some k /\ (d_thread s t = DLead q \/ exists r, d_thread s t = DClosed q r)) /\
  (forall t r, d_answer s t = Some r -> replied tr t r).

Lemma dinv_init : dinv dedup_init [].
Proof. split; [intros t; reflexivity|]. split; [intros k t H; discriminate H|intros t r H; discriminate H]. Qed.

Lemma progress_evs tr t q : (evs tr t = [(DEnter t q, OAsk q)] \/ exists r, evs tr t = [(DEnter t q, OAsk q); (DReply t r, ONone)]) -> in_progress tr t q.
Proof.
  intros H. split.
  - unfold asked. apply in_evs. cbn [tid]. destruct H as [->|[r ->]]; left; reflexivity.
  - intros r (e & He & Hin). apply in_evs in Hin. assert (T : tid e = t) by (destruct He as [->| ->]; reflexivity). rewrite T in Hin.
    destruct H as [H|[r' H]]; rewrite H in Hin; cbn [In] in Hin; destruct He as [->| ->];
      repeat match goal with H : _ \/ _ |- _ => destruct H as [H|H] end; try discriminate; try contradiction.
Qed.

(** follows is stable *)
Lemma follows_mono s s' tr e o t q l : follows s tr t q l ->
  (forall m qm, d_thread s m = DLead qm -> d_thread s' m = DLead qm \/ exists r, d_answer s' m = Some r) ->
  (forall m r, d_answer s m = Some r -> exists r', d_answer s' m = Some r') ->
  follows s' (tr ++ [(e, o)]) t q l.
Proof.
  intros (tr1 & tr2 & ql & k & E & P & K & K' & A) H1 H2. exists tr1, (tr2 ++ [(e, o)]), ql, k.
  split; [rewrite E, <- app_assoc; reflexivity|]. split; [exact P|]. split; [exact K|]. split; [exact K'|].
  destruct A as [A|[r A]]; [apply (H1 l ql A)|right; apply (H2 l r A)].
Qed.

Lemma set_same {A} n (v : A) f : set_at n v f n = v. Proof. unfold set_at. rewrite Nat.eqb_refl. reflexivity. Qed.
Lemma set_other {A} n m (v : A) f : m <> n -> set_at n v f m = f m.
Proof. intros H. unfold set_at. apply Nat.eqb_neq in H. rewrite H. reflexivity. Qed.
Lemma key_set_same {A} k (v : A) f : set_key k v f k = v. Proof. unfold set_key. destruct (dkey_eq k k); [reflexivity|contradiction]. Qed.
Lemma key_set_other {A} k m (v : A) f : m <> k -> set_key k v f m = f m. Proof. intros H. unfold set_key. destruct (dkey_eq m k); [contradiction|reflexivity]. Qed.

Lemma replied_mono tr x t r : replied tr t r -> replied (tr ++ [x]) t r.
Proof. intros (o & H). exists o. apply in_or_app. left. exact H. Qed.

Lemma step_inv s tr e s' o : dinv s tr -> dedup_step s e = Some (s', o) -> dinv s' (tr ++ [(e, o)]).
Proof.
  intros (HT & HI & HA) E. destruct e as [t q|t r|t|t]; cbn [dedup_step] in E.
  - (* DEnter *)
    destruct (d_thread s t) eqn:Et; try discriminate E. destruct (dedup_key q) as [k|] eqn:Ek; [|discriminate E].
    assert (Hev := HT t). unfold tinv in Hev. rewrite Et in Hev.
    destruct (d_inflight s k) as [l|] eqn:Ei; injection E as <- <-.
    + assert (Hl := HI k l Ei). destruct Hl as (ql & Kl & Tl).
      assert (Hne : l <> t) by (intros ->; rewrite Et in Tl; destruct Tl as [Tl|[r Tl]]; discriminate Tl).
      assert (HL := HT l). unfold tinv in HL.
      assert (M : forall m qm, d_thread s m = DLead qm -> d_thread (DState (d_inflight s) (d_answer s) (set_at t (DWait q l) (d_thread s))) m = DLead qm \/ exists r, d_answer s m = Some r).
      { intros m qm Hm. left. cbn [d_thread]. rewrite set_other; [exact Hm|]. intros ->. rewrite Et in Hm. discriminate Hm. }
      split; [|split].
      * intros m. unfold tinv. cbn [d_thread d_inflight d_answer]. destruct (Nat.eq_dec m t) as [->|Hm].
        -- rewrite set_same, evs_snoc_same by reflexivity. rewrite Hev. split; [reflexivity|].
           exists tr, [], ql, k. split; [reflexivity|]. split.
           ++ apply progress_evs. destruct Tl as [Tl|[r Tl]]; rewrite Tl in HL; [left; apply HL|right; exists r; apply HL].
           ++ split; [exact Ek|]. split; [exact Kl|]. cbn [d_thread d_answer]. rewrite set_other by exact Hne.
              destruct Tl as [Tl|[r Tl]]; [left; exact Tl|right; exists r]. rewrite Tl in HL. apply HL.
        -- rewrite set_other by exact Hm. rewrite evs_snoc_other by (cbn [tid]; congruence).
           assert (Hm' := HT m). unfold tinv in Hm'. destruct (d_thread s m) as [|qm|qm rm|qm lm|qm rm]; try exact Hm'.
           ++ destruct Hm' as [A F]. split; [exact A|]. apply (follows_mono s); [exact F|exact M|intros n r Hn; exists r; exact Hn].
           ++ destruct Hm' as [A|(lm & r0 & A & B & C & F)]; [left; exact A|right; exists lm, r0]. repeat (split; [assumption|]).
              apply (follows_mono s); [exact F|exact M|intros n r Hn; exists r; exact Hn].
      * intros k' t' H. cbn [d_inflight d_thread] in *. destruct (HI k' t' H) as (q' & K' & T'). exists q'. split; [exact K'|].
        rewrite set_other; [exact T'|]. intros ->. rewrite Et in T'. destruct T' as [T'|[r T']]; discriminate T'.
      * intros t' r H. apply replied_mono, HA, H.
    + split; [|split].
      * intros m. unfold tinv. cbn [d_thread d_inflight d_answer]. destruct (Nat.eq_dec m t) as [->|Hm].
        -- rewrite set_same, evs_snoc_same by reflexivity. rewrite Hev. split; [reflexivity|]. exists k. split; [exact Ek|apply key_set_same].
        -- rewrite set_other by exact Hm. rewrite evs_snoc_other by (cbn [tid]; congruence).
           assert (M : forall n qm, d_thread s n = DLead qm -> d_thread (DState (set_key k (Some t) (d_inflight s)) (d_answer s) (set_at t (DLead q) (d_thread s))) n = DLead qm \/ exists r, d_answer s n = Some r).
           { intros n qm Hn. left. cbn [d_thread]. rewrite set_other; [exact Hn|]. intros ->. rewrite Et in Hn. discriminate Hn. }
           assert (Hm' := HT m). unfold tinv in Hm'. destruct (d_thread s m) as [|qm|qm rm|qm lm|qm rm]; try exact Hm'.
           ++ destruct Hm' as [A (k' & K' & I')]. split; [exact A|]. exists k'. split; [exact K'|].
              rewrite key_set_other; [exact I'|]. intros ->. rewrite Ei in I'. discriminate I'.
           ++ destruct Hm' as [A [B (k' & K' & I')]]. split; [exact A|]. split; [exact B|]. exists k'. split; [exact K'|].
              rewrite key_set_other; [exact I'|]. intros ->. rewrite Ei in I'. discriminate I'.
           ++ destruct Hm' as [A F]. split; [exact A|]. apply (follows_mono s); [exact F|exact M|intros n r Hn; exists r; exact Hn].
           ++ destruct Hm' as [A|(lm & r0 & A & B & C & F)]; [left; exact A|right; exists lm, r0]. repeat (split; [assumption|]).
              apply (follows_mono s); [exact F|exact M|intros n r Hn; exists r; exact Hn].
      * intros k' t' H. cbn [d_inflight d_thread] in *. destruct (dkey_eq k' k) as [->|Nk].
        -- rewrite key_set_same in H. injection H as <-. exists q. split; [exact Ek|]. left. apply set_same.
        -- rewrite key_set_other in H by exact Nk. destruct (HI k' t' H) as (q' & K' & T'). exists q'. split; [exact K'|].
           rewrite set_other; [exact T'|]. intros ->. rewrite Et in T'. destruct T' as [T'|[r T']]; discriminate T'.
      * intros t' r H. apply replied_mono, HA, H.
  - (* DReply *)
    destruct (d_thread s t) as [|q|q r1|q l|q r1] eqn:Et; try discriminate E. injection E as <- <-.
    assert (Hev := HT t). unfold tinv in Hev. rewrite Et in Hev. destruct Hev as [Hev (k & Kk & Ik)].
    assert (M : forall n qm, d_thread s n = DLead qm -> d_thread (DState (d_inflight s) (set_at t (Some r) (d_answer s)) (set_at t (DClosed q r) (d_thread s))) n = DLead qm \/ exists r0, set_at t (Some r) (d_answer s) n = Some r0).
    { intros n qm Hn. destruct (Nat.eq_dec n t) as [->|Hnt]; [right; exists r; apply set_same|left; cbn [d_thread]; rewrite set_other by exact Hnt; exact Hn]. }
    assert (M2 : forall n r0, d_answer s n = Some r0 -> exists r', set_at t (Some r) (d_answer s) n = Some r').
    { intros n r0 Hn. destruct (Nat.eq_dec n t) as [->|Hnt]; [exists r; apply set_same|exists r0; rewrite set_other by exact Hnt; exact Hn]. }
    assert (NA : d_answer s t = None).
    { destruct (d_answer s t) as [r0|] eqn:Ea; [|reflexivity]. destruct (HA t r0 Ea) as (o & Ho). apply in_evs in Ho. cbn [tid] in Ho. rewrite Hev in Ho.
      destruct Ho as [Ho|[]]. discriminate Ho. }
    split; [|split].
    + intros m. unfold tinv. cbn [d_thread d_inflight d_answer]. destruct (Nat.eq_dec m t) as [->|Hm].
      * rewrite set_same, evs_snoc_same by reflexivity. rewrite Hev. split; [reflexivity|]. split; [apply set_same|]. exists k. split; assumption.
      * rewrite !set_other by exact Hm. rewrite evs_snoc_other by (cbn [tid]; congruence).
        assert (Hm' := HT m). unfold tinv in Hm'. destruct (d_thread s m) as [|qm|qm rm|qm lm|qm rm]; try exact Hm'.
        -- destruct Hm' as [A F]. split; [exact A|]. apply (follows_mono s); [exact F|exact M|exact M2].
        -- destruct Hm' as [A|(lm & r0 & A & B & C & F)]; [left; exact A|right; exists lm, r0]. repeat (split; [assumption|]).
           split; [rewrite set_other; [exact C|]; intros ->; rewrite NA in C; discriminate C|].
           apply (follows_mono s); [exact F|exact M|exact M2].
    + intros k' t' H. cbn [d_inflight d_thread] in *. destruct (HI k' t' H) as (q' & K' & T'). exists q'. split; [exact K'|].
      destruct (Nat.eq_dec t' t) as [->|Ht]; [|rewrite set_other by exact Ht; exact T'].
      rewrite set_same. right. exists r. rewrite Et in T'. destruct T' as [T'|[r' T']]; [injection T' as <-; reflexivity|discriminate T'].
    + intros t' r' H. cbn [d_answer] in H. destruct (Nat.eq_dec t' t) as [->|Ht].
      * rewrite set_same in H. injection H as <-. exists ONone. apply in_or_app. right. left. reflexivity.
      * rewrite set_other in H by exact Ht. apply replied_mono, HA, H.
  - (* DRemove *)
    destruct (d_thread s t) as [|q|q r1|q l|q r1] eqn:Et; try discriminate E. destruct (dedup_key q) as [k|] eqn:Ek; [|discriminate E].
    injection E as <- <-. assert (Hev := HT t). unfold tinv in Hev. rewrite Et in Hev. destruct Hev as [Hev (Ha & k0 & Kk & Ik)].
    assert (k0 = k) by congruence. subst k0.
    assert (M : forall n qm, d_thread s n = DLead qm -> d_thread (DState (set_key k None (d_inflight s)) (d_answer s) (set_at t (DReturned q (own_copy q r1)) (d_thread s))) n = DLead qm \/ exists r, d_answer s n = Some r).
    { intros n qm Hn. left. cbn [d_thread]. rewrite set_other; [exact Hn|]. intros ->. rewrite Et in Hn. discriminate Hn. }
    split; [|split].
    + intros m. unfold tinv. cbn [d_thread d_inflight d_answer]. destruct (Nat.eq_dec m t) as [->|Hm].
      * rewrite set_same, evs_snoc_same by reflexivity. rewrite Hev. left. exists r1. split; reflexivity.
      * rewrite set_other by exact Hm. rewrite evs_snoc_other by (cbn [tid]; congruence).
        assert (Hm' := HT m). unfold tinv in Hm'. destruct (d_thread s m) as [|qm|qm rm|qm lm|qm rm]; try exact Hm'.
        -- destruct Hm' as [A (k' & K' & I')]. split; [exact A|]. exists k'. split; [exact K'|].
           rewrite key_set_other; [exact I'|]. intros ->. congruence.
        -- destruct Hm' as [A [B (k' & K' & I')]]. split; [exact A|]. split; [exact B|]. exists k'. split; [exact K'|].
           rewrite key_set_other; [exact I'|]. intros ->. congruence.
        -- destruct Hm' as [A F]. split; [exact A|]. apply (follows_mono s); [exact F|exact M|intros n r Hn; exists r; exact Hn].
        -- destruct Hm' as [A|(lm & r0 & A & B & C & F)]; [left; exact A|right; exists lm, r0]. repeat (split; [assumption|]).
           apply (follows_mono s); [exact F|exact M|intros n r Hn; exists r; exact Hn].
    + intros k' t' H. cbn [d_inflight d_thread] in *. destruct (dkey_eq k' k) as [->|Nk]; [rewrite key_set_same in H; discriminate H|].
      rewrite key_set_other in H by exact Nk. destruct (HI k' t' H) as (q' & K' & T'). exists q'. split; [exact K'|].
      rewrite set_other; [exact T'|]. intros ->. rewrite Et in T'. destruct T' as [T'|[r T']]; [discriminate T'|]. injection T' as <- _. congruence.
    + intros t' r H. apply replied_mono, HA, H.
  - (* DWake *)
    destruct (d_thread s t) as [|q|q r1|q l|q r1] eqn:Et; try discriminate E. destruct (d_answer s l) as [r0|] eqn:Ea; [|discriminate E].
    injection E as <- <-. assert (Hev := HT t). unfold tinv in Hev. rewrite Et in Hev. destruct Hev as [Hev Hf].
    assert (M : forall n qm, d_thread s n = DLead qm -> d_thread (DState (d_inflight s) (d_answer s) (set_at t (DReturned q (own_copy q r0)) (d_thread s))) n = DLead qm \/ exists r, d_answer s n = Some r).
    { intros n qm Hn. left. cbn [d_thread]. rewrite set_other; [exact Hn|]. intros ->. rewrite Et in Hn. discriminate Hn. }
    split; [|split].
    + intros m. unfold tinv. cbn [d_thread d_inflight d_answer]. destruct (Nat.eq_dec m t) as [->|Hm].
      * rewrite set_same, evs_snoc_same by reflexivity. rewrite Hev. right. exists l, r0. split; [reflexivity|]. split; [reflexivity|].
        split; [exact Ea|]. apply (follows_mono s); [exact Hf|exact M|intros n r Hn; exists r; exact Hn].
      * rewrite set_other by exact Hm. rewrite evs_snoc_other by (cbn [tid]; congruence).
        assert (Hm' := HT m). unfold tinv in Hm'. destruct (d_thread s m) as [|qm|qm rm|qm lm|qm rm]; try exact Hm'.
        -- destruct Hm' as [A F]. split; [exact A|]. apply (follows_mono s); [exact F|exact M|intros n r Hn; exists r; exact Hn].
        -- destruct Hm' as [A|(lm & r1 & A & B & C & F)]; [left; exact A|right; exists lm, r1]. repeat (split; [assumption|]).
           apply (follows_mono s); [exact F|exact M|intros n r Hn; exists r; exact Hn].
    + intros k' t' H. cbn [d_inflight d_thread] in *. destruct (HI k' t' H) as (q' & K' & T'). exists q'. split; [exact K'|].
      rewrite set_other; [exact T'|]. intros ->. rewrite Et in T'. destruct T' as [T'|[r T']]; discriminate T'.
    + intros t' r H. apply replied_mono, HA, H.
Qed.

Lemma exec_inv l : forall s tr s' tr', dinv s tr -> dedup_exec s l = Some (s', tr') -> dinv s' (tr ++ tr').
Proof.
  induction l as [|e l IH]; intros s tr s' tr' H E; cbn [dedup_exec] in E.
  - injection E as <- <-. rewrite app_nil_r. exact H.
  - destruct (dedup_step s e) as [[s1 o]|] eqn:E1; [|discriminate E]. destruct (dedup_exec s1 l) as [[s2 tr2]|] eqn:E2; [|discriminate E].
    injection E as <- <-. assert (H1 := step_inv s tr e s1 o H E1). specialize (IH s1 (tr ++ [(e, o)]) s2 tr2 H1 E2).
    rewrite <- app_assoc in IH. exact IH.
Qed.
Lemma exec_init l s tr : dedup_exec dedup_init l = Some (s, tr) -> dinv s tr.
Proof. intros E. exact (exec_inv l dedup_init [] s tr dinv_init E). Qed.
