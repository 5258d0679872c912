From Verif Require Import Base Bytes Dns Groups_model Client_spec Client_proofs Pipeline_model Pipeline_spec Pipeline_proofs Pipeline_proofs2.
Local Open Scope nat_scope.

Lemma pipe_safe l s : reached l s -> crash s = false /\ NoDup (map fst (inflight s)) /\ NoDup (map snd (inflight s)).
Proof.
  intros H. pose proof (inv_exec l s H) as I. split; [apply I|]. split; [apply I|]. apply cnt_nodup. intros j. pose proof (POk_le s j (i_req s I j)). unfold places in *. lia.
Qed.
Lemma pipe_answer l s k a : reached l s -> callers s k = CRet (Ans a) -> exists q, In (ECall k q) l /\ obtained s k q a /\ echoes q a.
Proof.
  intros H C. destruct (inv2_exec l s H) as [Q _ _ _ _]. destruct (q_ret _ _ _ _ Q k a C) as (r & E & D & V). exists (r_q r).
  split; [apply (q_req _ _ _ _ Q k r E)|]. split; [|apply echoes_spec, V]. destruct (q_done _ _ _ _ Q k r a E D) as (n & m & a0 & S & R & ->).
  destruct (q_sent _ _ _ _ Q _ _ _ _ S) as (r' & E' & -> & L & _). assert (r' = r) as -> by congruence. exists n, (m_id a0), a0. repeat (split; [assumption|]). split; [reflexivity|].
  split; [reflexivity|destruct a0; reflexivity].
Qed.
Lemma pipe_call l s k q q' : reached l s -> In (ECall k q) l -> In (ECall k q') l -> q = q'.
Proof.
  intros H I1 I2. destruct (inv2_exec l s H) as [Q _ _ _ _]. destruct (q_call _ _ _ _ Q k q I1) as (r & E & <-). destruct (q_call _ _ _ _ Q k q' I2) as (r' & E' & <-). congruence.
Qed.
Definition sends (k : nat) (w : wire) : bool := match w with Sent _ k' _ _ => Nat.eqb k' k | _ => false end.
Lemma sends_count k w : length (filter (sends k) w) = sentc w k.
Proof. induction w as [|[n j id m|n a] w IH]; cbn [filter sends sentc]; [reflexivity| |exact IH]. unfold one. destruct (Nat.eqb j k); cbn [length]; lia. Qed.
Lemma pipe_once l s k : reached l s -> length (filter (sends k) (wires s)) <= 1 /\
  forall n id m, In (Sent n k id m) (wires s) -> (id < 65536)%N /\ exists q, In (ECall k q) l /\ m = set_id id q.
Proof.
  intros H. destruct (inv2_exec l s H) as [Q O _ _ _]. split; [rewrite sends_count; specialize (O k); lia|]. intros n id m I.
  destruct (q_sent _ _ _ _ Q _ _ _ _ I) as (r & E & -> & L & _). split; [exact L|]. exists (r_q r). split; [apply (q_req _ _ _ _ Q k r E)|reflexivity].
Qed.
Lemma pipe_drained l s s' : reached l s -> pipe_step s EDrain = Some s' -> inflight s' = [] /\
  forall id k, In (id, k) (inflight s) -> exists r, reqs s' k = Some r /\ r_done r = Some (Err "closed").
Proof.
  intros H. pose proof (inv_exec l s H) as I. cbn [pipe_step]. destruct (main s) eqn:M; try discriminate. intros [= <-]. split; [reflexivity|]. intros id k F.
  assert (C : forall j, cnt (map snd (inflight s)) j <= 1) by (intros j; pose proof (POk_le s j (i_req s I j)); unfold places in *; lia).
  assert (O : forall j, In j (map snd (inflight s)) -> exists r, reqs s j = Some r /\ r_done r = None).
  { intros j X. apply cnt_in in X. destruct (POk_held s j (i_req s I j)) as (r & E & D & _); [unfold places; lia|]. exists r. auto. }
  destruct (fold_mark _ s C O) as [_ F2]. destruct (F2 k) as [G _]. destruct G as (r & _ & E); [apply in_map_iff; exists (id, k); auto|].
  eexists. split; [exact E|reflexivity].
Qed.
(** A connection is only opened with nothing in flight. *)
Lemma pipe_fresh l s : reached l s -> main s = MIdle \/ (exists k, main s = MGot k) -> inflight s = [].
Proof. intros H M. apply (i_idle s (inv_exec l s H) M). Qed.
Lemma cnt_ge l j : 1 <= cnt l j -> In j l.
Proof. induction l as [|x l IH]; cbn [cnt]; [lia|]. unfold one. destruct (Nat.eqb_spec x j) as [->|]; [left; reflexivity|right; apply IH; assumption]. Qed.
Lemma one_ge k j : 1 <= one k j -> k = j.
Proof. unfold one. destruct (Nat.eqb_spec k j); [auto|lia]. Qed.
Lemma places_held s k : 1 <= places s k -> held s k.
Proof.
  unfold places, held, cnt_main, cnt_writer, cnt_reader. intros H.
  destruct (Nat.eq_dec (cnt (requeue s) k) 0) as [Z1|Z1]; [|right; left; apply cnt_ge; lia].
  destruct (Nat.eq_dec (cnt (map snd (inflight s)) k) 0) as [Z2|Z2].
  2:{ right; right; right; right; left. assert (X : 1 <= cnt (map snd (inflight s)) k) by lia. apply cnt_ge, in_map_iff in X. destruct X as ([id k'] & E & X). cbn in E. subst. exists id. exact X. }
  rewrite Z1, Z2 in H. clear Z1 Z2.
  assert (X : main s = MGot k \/ writer s = WGot k \/ (exists e, writer s = WOwn k e) \/ exists a, reader s = RMatch k a).
  { destruct (main s) as [|k1| |]; destruct (writer s) as [| |k2| | |k2 e|]; destruct (reader s) as [| | |k3 a|]; try lia;
    repeat match goal with _ : context [one ?x k] |- _ => let E := fresh in destruct (Nat.eq_dec x k) as [->|E]; [|rewrite (one_neq x k E) in H; clear E] end;
    try lia; eauto 6. }
  destruct X as [X|[X|[X|X]]]; auto 7.
Qed.
Lemma pipe_waiting l s k : reached l s -> callers s k = CWait -> (exists r res, reqs s k = Some r /\ r_done r = Some res) \/ held s k.
Proof.
  intros H C. pose proof (i_req s (inv_exec l s H) k) as P. unfold POk in P. rewrite C in P. destruct P as (r & E & P). unfold open in P.
  destruct (r_done r) as [res|] eqn:D; [left; exists r, res; auto|right; apply places_held; lia].
Qed.
Lemma pipe_forgotten l s k s' : reached l s -> pipe_step s (EDelete k) = Some s' -> forall id, ~ In (id, k) (inflight s').
Proof.
  intros H ST id X. pose proof (inv_exec l s H) as I. destruct (inv2_exec l s H) as [Q _ F _ _]. cbn [pipe_step] in ST. destruct (callers s k) eqn:C; try discriminate ST.
  destruct (reqs s k) as [r|] eqn:E; [|discriminate ST]. injection ST as <-.
  assert (Y : forall id, In (id, k) (inflight s) -> r_id r = id).
  { intros id' G. destruct (F _ _ G) as (m & G'). destruct (q_sent _ _ _ _ Q _ _ _ _ G') as (r' & E' & _ & _ & R). congruence. }
  destruct (lookup (r_id r) (inflight s)) as [k'|] eqn:L.
  - apply lookup_some in L. destruct (Nat.eqb_spec k' k) as [->|N]; cbn in X.
    + apply remove_id_in in X. destruct X as [X1 X2]. apply Y in X1. cbn in X2. congruence.
    + assert (id = r_id r) as -> by (symmetry; apply Y, X). pose proof (i_ids s I) as ND. clear -X L ND N. induction (inflight s) as [|[i x] l IH]; [destruct X|]. cbn in ND. inversion ND as [|? ? N1 N2]; subst.
      destruct X as [X|X], L as [L|L]; try congruence.
      * injection X as -> ->. apply N1, in_map_iff. exists (r_id r, k'). auto.
      * injection L as -> ->. apply N1, in_map_iff. exists (r_id r, k). auto.
      * apply IH; assumption.
  - cbn in X. apply lookup_none in L. apply L. rewrite (Y _ X). apply in_map_iff. exists (id, k). auto.
Qed.
Lemma pipe_returns l s k : reached l s -> callers s k = CWait -> exists s', pipe_exec s [ETimeout k; EDelete k] = Some s' /\ callers s' k = CRet (Err "timeout").
Proof.
  intros H C. pose proof (i_req s (inv_exec l s H) k) as P. unfold POk in P. rewrite C in P. destruct P as (r & E & _). cbn [pipe_exec pipe_step]. rewrite C.
  cbn [callers reqs set_callers]. rewrite upd_eq, E. eexists. split; [reflexivity|]. cbn [callers set_callers]. apply upd_eq.
Qed.
