(** Lemmas about request de-duplication: keys. *)
From Verif Require Import Base Bytes Net Dns Cidr_model Cidr_spec Cidr_proofs2 Net_spec Net_proofs Dedup_model Dedup_spec.
From Coq Require Import ZifyBool ZifyNat ZifyN.
Local Open Scope N_scope.

Lemma big_endian_ipval b : big_endian b = ipval b. Proof. reflexivity. Qed.

(** The parts of the key that come from a client-subnet option *)
Definition ecs_part (o : option edns0) : N * (N * N) * N :=
  match o with
  | Some (ECS f m _ a) =>
      if f =? 1 then (byteToUint32 (nil_of (to4 a)), (0, 0), m)
      else if f =? 2 then (0, byteToUint128 (nil_of (to16 a)), m) else (0, (0, 0), 0)
  | _ => (0, (0, 0), 0)
  end.
Lemma dedup_ecs_find l : dedup_ecs l = ecs_part (find (fun x => match x with ECS _ _ _ _ => true | _ => false end) l).
Proof. induction l as [|o l IH]; [reflexivity|]. destruct o; cbn [dedup_ecs find ecs_part]; try exact IH. reflexivity. Qed.

Lemma key_part q x xs : m_question q = x :: xs ->
  dedup_key q = Some (let '(v4, (hi, lo), mask) := ecs_part (subnet_option q) in
                      DKey (lower (q_name x)) (q_type x) (q_class x) (do_bit q) (m_cd q) v4 hi lo mask).
Proof.
  intros E. unfold dedup_key, subnet_option, do_bit. rewrite E. destruct (is_edns0 q) as [o|].
  - rewrite dedup_ecs_find. destruct (ecs_part _) as [[v4 [hi lo]] mask]. reflexivity.
  - reflexivity.
Qed.

(** The key's address parts determine the address. *)
Lemma v4_part a v : address 1 a v -> byteToUint32 (nil_of (to4 a)) = v.
Proof.
  intros [[-> ->]|[(H & _ & V & ->)|[(H & _ & V & ->)|(_ & E & _)]]]; [reflexivity| | |discriminate E].
  - destruct (canon_v4 a H V) as (L & B & ->). unfold canon in *.
    destruct (v4_or a H) as [[L' E]|[(M & L' & E)|(NV & _)]]; [| |contradiction]; rewrite E in *; cbn [nil_of];
      unfold byteToUint32; rewrite L; cbn [Nat.eqb]; rewrite big_endian_ipval; lia.
  - destruct (v4_or a H) as [[L' E]|[(M & L' & E)|(NV & L & E)]];
      [exfalso; apply V; left; exact L'|exfalso; apply V; right; exact M|]. rewrite E. reflexivity.
Qed.
Lemma v6_part a v : address 2 a v -> exists hi lo, byteToUint128 (nil_of (to16 a)) = (hi, lo) /\ v = hi * 2 ^ 64 + lo /\ lo < 2 ^ 64.
Proof.
  assert (G : forall b, length b = 16%nat -> bytes_ok b -> exists hi lo, byteToUint128 b = (hi, lo) /\ ipval b = hi * 2 ^ 64 + lo /\ lo < 2 ^ 64).
  { intros b L B. unfold byteToUint128. rewrite L. cbn [Nat.eqb]. exists (ipval (firstn 8 b)), (ipval (skipn 8 b)).
    assert (L2 : length (skipn 8 b) = 8%nat) by (rewrite skipn_length, L; reflexivity).
    split; [reflexivity|]. split.
    - rewrite <- (firstn_skipn 8 b) at 1. rewrite ipval_app, L2. reflexivity.
    - assert (X := ipval_lt _ (bytes_ok_skip 8 b B)). rewrite L2 in X. exact X. }
  intros [[-> ->]|[(_ & E & _)|[(_ & E & _)|(H & _ & ->)]]]; [exists 0, 0; repeat split; reflexivity|discriminate E|discriminate E|].
  destruct H as [B [L|L]]; unfold to16; rewrite L; cbn [Nat.eqb nil_of].
  - rewrite val128_4 by exact L. replace (65535 * 2 ^ 32 + ipval a) with (ipval (v4prefix ++ a)).
    + apply G; [rewrite app_length, L; reflexivity|]. apply Forall_app. split; [repeat (constructor; [reflexivity|]); constructor|exact B].
    + rewrite ipval_app, L. reflexivity.
  - rewrite val128_16 by exact L. apply G; assumption.
Qed.

Lemma subnet_part q s : subnet q s ->
  exists v4 hi lo mask, ecs_part (subnet_option q) = (v4, (hi, lo), mask) /\ lo < 2 ^ 64 /\
  match s with
  | None => v4 = 0 /\ hi = 0 /\ lo = 0 /\ mask = 0
  | Some (f, v, m) => mask = m /\ ((f = 1 /\ v4 = v /\ hi = 0 /\ lo = 0) \/ (f = 2 /\ v4 = 0 /\ v = hi * 2 ^ 64 + lo))
  end.
Proof.
  intros [E|f m sc a E N1 N2|f m sc a v E F A]; rewrite E; cbn [ecs_part].
  - exists 0, 0, 0, 0. repeat split; reflexivity.
  - replace (f =? 1) with false by lia. replace (f =? 2) with false by lia. exists 0, 0, 0, 0. repeat split; reflexivity.
  - destruct F as [->| ->].
    + cbn [N.eqb Pos.eqb]. rewrite (v4_part a v A). exists v, 0, 0, m. split; [reflexivity|]. split; [reflexivity|]. split; [reflexivity|]. left. repeat split; reflexivity.
    + cbn [N.eqb Pos.eqb]. destruct (v6_part a v A) as (hi & lo & -> & Ev & Hlo). exists 0, hi, lo, m.
      split; [reflexivity|]. split; [exact Hlo|]. split; [reflexivity|]. right. repeat split; [exact Ev].
Qed.

Lemma parts_same q q' s s' : subnet q s -> subnet q' s' ->
  (ecs_part (subnet_option q) = ecs_part (subnet_option q') <-> subnets_same s s').
Proof.
  intros S S'. apply subnet_part in S. apply subnet_part in S'.
  destruct S as (v4 & hi & lo & mask & -> & Hlo & C). destruct S' as (v4' & hi' & lo' & mask' & -> & Hlo' & C').
  change (2 ^ 64) with 18446744073709551616 in *.
  unfold subnets_same, zero_subnet. split.
  - intros E. injection E as <- <- <- <-. destruct s as [[[f v] m]|], s' as [[[f' v'] m']|].
    + destruct C as [<- C], C' as [<- C']. destruct C as [(-> & <- & -> & ->)|(-> & -> & ->)], C' as [(-> & C' & W)|(-> & C' & ->)].
      * left. rewrite C'. reflexivity.
      * right. exists mask. lia.
      * right. exists mask. lia.
      * left. reflexivity.
    + right. exists mask. lia.
    + right. exists mask. lia.
    + left. reflexivity.
  - intros [<-|(m0 & Z1 & Z2)].
    + destruct s as [[[f v] m]|].
      * destruct C as [-> C], C' as [-> C'].
        assert (X : v4 = v4' /\ hi = hi' /\ lo = lo') by lia. destruct X as (-> & -> & ->). reflexivity.
      * destruct C as (-> & -> & -> & ->), C' as (-> & -> & -> & ->). reflexivity.
    + assert (X : v4 = v4' /\ hi = hi' /\ lo = lo' /\ mask = mask') by (destruct s as [[[f v] m]|], s' as [[[f' v'] m']|]; lia).
      destruct X as (-> & -> & -> & ->). reflexivity.
Qed.

Lemma subnet_total q : subnet_ok q -> exists s, subnet q s.
Proof.
  unfold subnet_ok. intros H. destruct (subnet_option q) as [o|] eqn:E; [|exists None; apply subnet_none; exact E].
  destruct o as [f m sc a|d|c t|d|c d|c d].
  2-6: exfalso; unfold subnet_option in E; destruct (is_edns0 q); [|discriminate E]; apply find_some in E; destruct E as [_ E]; discriminate E.
  destruct (N.eq_dec f 1) as [->|N1]; [|destruct (N.eq_dec f 2) as [->|N2]].
  - destruct H as [->|H].
    + exists (Some (1, 0, m)). apply (subnet_some q 1 m sc [] 0 E); [left; reflexivity|]. left. split; reflexivity.
    + destruct (is_v4_dec a H) as [V|V].
      * exists (Some (1, val128 a - 65535 * 2 ^ 32, m)). apply (subnet_some q 1 m sc a _ E); [left; reflexivity|]. right. left. repeat split; try assumption; apply H.
      * exists (Some (1, 0, m)). apply (subnet_some q 1 m sc a _ E); [left; reflexivity|]. right. right. left. repeat split; try assumption; apply H.
  - destruct H as [->|H].
    + exists (Some (2, 0, m)). apply (subnet_some q 2 m sc [] 0 E); [right; reflexivity|]. left. split; reflexivity.
    + exists (Some (2, val128 a, m)). apply (subnet_some q 2 m sc a _ E); [right; reflexivity|]. right. right. right. repeat split; apply H.
  - exists None. apply (subnet_other q f m sc a E); assumption.
Qed.

Theorem key_same q q' : subnet_ok q -> subnet_ok q' ->
  ((exists k, dedup_key q = Some k /\ dedup_key q' = Some k) <-> same_question q q').
Proof.
  intros H H'. destruct (subnet_total q H) as (s & S). destruct (subnet_total q' H') as (s' & S').
  assert (P := parts_same q q' s s' S S'). split.
  - intros (k & K & K'). destruct (m_question q) as [|x xs] eqn:Q; [unfold dedup_key in K; rewrite Q in K; discriminate K|].
    destruct (m_question q') as [|x' xs'] eqn:Q'; [unfold dedup_key in K'; rewrite Q' in K'; discriminate K'|].
    rewrite (key_part q x xs Q) in K. rewrite (key_part q' x' xs' Q') in K'.
    destruct (ecs_part (subnet_option q)) as [[v4 [hi lo]] mask]. destruct (ecs_part (subnet_option q')) as [[v4' [hi' lo']] mask'].
    rewrite <- K in K'. injection K' as E1 E2 E3 E4 E5 E6 E7 E8 E9. subst v4' hi' lo' mask'.
    exists x, xs, x', xs'. repeat (split; [congruence|]). exists s, s'. split; [exact S|]. split; [exact S'|]. apply P. reflexivity.
  - intros (x & xs & x' & xs' & Q & Q' & E1 & E2 & E3 & E4 & E5 & s1 & s1' & S1 & S1' & E).
    apply (parts_same q q' s1 s1' S1 S1') in E.
    rewrite (key_part q x xs Q), (key_part q' x' xs' Q'), E. destruct (ecs_part (subnet_option q')) as [[v4 [hi lo]] mask].
    eexists. split; [reflexivity|]. rewrite E1, E2, E3, E4, E5. reflexivity.
Qed.
