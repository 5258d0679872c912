From Verif Require Import Base Dns Cache_model Cache_spec Shuffle_spec Cache_proofs Lru_proofs.
From Coq Require Import ZifyBool ZifyNat ZifyN Permutation.
Open Scope nat_scope.

(** ** Random *)
Definition setn {A} (n : nat) (v : A) (l : list A) := firstn n l ++ v :: skipn (S n) l.

Lemma setn_length {A} n (v : A) l : n < length l -> length (setn n v l) = length l.
Proof. intros H. unfold setn. rewrite app_length, firstn_length. cbn [length]. rewrite skipn_length. lia. Qed.

Lemma setn_nth {A} n (v : A) l k : n < length l -> nth_error (setn n v l) k = if Nat.eqb k n then Some v else nth_error l k.
Proof.
  intros H. unfold setn. destruct (Nat.eqb_spec k n) as [->|Hn].
  - rewrite nth_error_app2; rewrite firstn_length; [|lia]. replace (n - Nat.min n (length l)) with 0 by lia. reflexivity.
  - destruct (Nat.lt_ge_cases k n).
    + rewrite nth_error_app1; [|rewrite firstn_length; lia]. rewrite <- (firstn_skipn n l) at 2. rewrite nth_error_app1; [reflexivity|rewrite firstn_length; lia].
    + rewrite nth_error_app2; rewrite firstn_length; [|lia]. replace (k - Nat.min n (length l)) with (S (k - n - 1)) by lia. cbn [nth_error].
      rewrite <- (firstn_skipn (S n) l) at 2. rewrite nth_error_app2; rewrite firstn_length; [|lia]. f_equal. lia.
Qed.

Lemma swap_setn {A} (d : A) i j l : swap d i j l = setn j (nth i l d) (setn i (nth j l d) l).
Proof. reflexivity. Qed.

Lemma swap_nth {A} (d : A) i j l k : i < length l -> j < length l -> k <> i -> k <> j -> nth_error (swap d i j l) k = nth_error l k.
Proof.
  intros Hi Hj H1 H2. rewrite swap_setn, setn_nth by (rewrite setn_length; assumption). destruct (Nat.eqb_spec k j); [congruence|].
  rewrite setn_nth by assumption. destruct (Nat.eqb_spec k i); [congruence|reflexivity].
Qed.

Lemma swap_length {A} (d : A) i j l : i < length l -> j < length l -> length (swap d i j l) = length l.
Proof. intros Hi Hj. rewrite swap_setn, !setn_length; auto. rewrite setn_length; auto. Qed.

Definition transp (i j k : nat) : nat := if Nat.eqb k i then j else if Nat.eqb k j then i else k.

Lemma swap_perm {A} (d : A) i j l : i < length l -> j < length l -> Permutation l (swap d i j l).
Proof.
  intros Hi Hj. apply Permutation_nth_error. split; [symmetry; apply swap_length; assumption|].
  exists (transp i j). split.
  - intros x y. unfold transp. destruct (Nat.eqb_spec x i), (Nat.eqb_spec y i), (Nat.eqb_spec x j), (Nat.eqb_spec y j); lia.
  - intros k. rewrite swap_setn, setn_nth by (rewrite setn_length; assumption). unfold transp.
    destruct (Nat.eqb_spec k j) as [->|Hn].
    + destruct (Nat.eqb_spec j i) as [->|]; symmetry; apply nth_error_nth'; assumption.
    + rewrite setn_nth by assumption. destruct (Nat.eqb_spec k i) as [->|]; [symmetry; apply nth_error_nth'; assumption|reflexivity].
Qed.

Lemma addr_idx_iff l : forall i k, In k (addr_idx i l) <-> i <= k /\ exists r, nth_error l (k - i) = Some r /\ is_addr r = true.
Proof.
  induction l as [|a l IH]; intros i k; cbn [addr_idx].
  - split; [contradiction|]. intros (_ & r & E & _). destruct (k - i); discriminate.
  - assert (G : In k (addr_idx (S i) l) <-> S i <= k /\ exists r, nth_error (a :: l) (k - i) = Some r /\ is_addr r = true).
    { rewrite IH. split; intros (Hk & r & E & Ha); (split; [assumption|]); exists r; (split; [|assumption]);
      replace (k - i) with (S (k - S i)) in * by lia; exact E. }
    destruct (is_addr a) eqn:Ha; cbn [In]; rewrite G.
    + split.
      * intros [->|(Hk & H)]; [|split; [lia|exact H]]. split; [lia|]. rewrite Nat.sub_diag. exists a. auto.
      * intros (Hk & H). destruct (Nat.eq_dec i k); [left; assumption|right; split; [lia|exact H]].
    + split; intros (Hk & H); (split; [try lia|exact H]). destruct (Nat.eq_dec i k) as [->|]; [|lia].
      rewrite Nat.sub_diag in H. destruct H as (r & E & Hr). cbn in E. congruence.
Qed.

Lemma set_answer_self m : set_answer (m_answer m) m = m. Proof. destruct m; reflexivity. Qed.

Lemma shuffled_refl m : shuffled m m.
Proof. split; [symmetry; apply set_answer_self|]. split; [reflexivity|auto]. Qed.

Lemma random_shuffled choices m : shuffled m (AnswerShuffleRandom choices m).
Proof.
  unfold AnswerShuffleRandom. destruct (Nat.ltb (length (m_answer m)) 2); [apply shuffled_refl|].
  set (idx := addr_idx 0 (m_answer m)).
  assert (Hidx : forall p, p < length idx -> exists r, nth_error (m_answer m) (nth p idx 0) = Some r /\ is_addr r = true).
  { intros p Hp. pose proof (nth_In idx 0 Hp) as H. apply addr_idx_iff in H. destruct H as (_ & r & E & Ha). rewrite Nat.sub_0_r in E. eauto. }
  assert (G : forall cs l, length l = length (m_answer m) -> Permutation (m_answer m) l ->
     (forall k r, nth_error (m_answer m) k = Some r -> is_addr r = false -> nth_error l k = Some r) ->
     let l' := fold_left (fun l p => if Nat.ltb (fst p) (length idx) && Nat.ltb (snd p) (length idx)
       then swap dummy_rr (nth (fst p) idx 0%nat) (nth (snd p) idx 0%nat) l else l) cs l in
     Permutation (m_answer m) l' /\ (forall k r, nth_error (m_answer m) k = Some r -> is_addr r = false -> nth_error l' k = Some r)).
  { induction cs as [|[p1 p2] cs IH]; intros l Hl Hp Hk; cbn [fold_left fst snd]; [auto|].
    destruct (Nat.ltb_spec p1 (length idx)) as [L1|]; [|apply IH; assumption].
    destruct (Nat.ltb_spec p2 (length idx)) as [L2|]; [|apply IH; assumption]. cbn [andb].
    destruct (Hidx p1 L1) as (r1 & E1 & A1). destruct (Hidx p2 L2) as (r2 & E2 & A2).
    assert (B1 : nth p1 idx 0 < length l) by (rewrite Hl; apply nth_error_Some; congruence).
    assert (B2 : nth p2 idx 0 < length l) by (rewrite Hl; apply nth_error_Some; congruence).
    apply IH.
    - rewrite swap_length; assumption.
    - etransitivity; [exact Hp|]. apply swap_perm; assumption.
    - intros k r Er Ar. rewrite swap_nth; auto; intros ->; congruence. }
  destruct (G choices (m_answer m) eq_refl (Permutation_refl _) (fun k r E _ => E)) as [G1 G2].
  split; [reflexivity|]. split; assumption.
Qed.

(** ** Round robin *)
Lemma rotate_perm vs : Permutation vs (rotate_once vs).
Proof.
  destruct vs as [|v vs]; [reflexivity|]. unfold rotate_once.
  rewrite (app_removelast_last (l := v :: vs) v) at 1 by discriminate. symmetry. apply Permutation_cons_append.
Qed.
Lemma rotate_length vs : length (rotate_once vs) = length vs.
Proof. symmetry. apply Permutation_length, rotate_perm. Qed.
Lemma iter_rotate_perm n vs : Permutation vs (iter n rotate_once vs).
Proof. induction n as [|n IH]; cbn [iter]; [reflexivity|]. etransitivity; [exact IH|apply rotate_perm]. Qed.

Lemma put_addrs_spec l : forall vs, length vs = length (filter is_addr l) -> Forall (fun r => is_addr r = true) vs ->
  length (put_addrs vs l) = length l /\ filter is_addr (put_addrs vs l) = vs /\
  (forall k r, nth_error l k = Some r -> is_addr r = false -> nth_error (put_addrs vs l) k = Some r) /\
  filter (fun r => negb (is_addr r)) (put_addrs vs l) = filter (fun r => negb (is_addr r)) l.
Proof.
  induction l as [|a l IH]; intros vs Hl Hv; cbn [put_addrs filter].
  - cbn in Hl. destruct vs; [|discriminate]. repeat split; auto.
  - cbn [filter] in Hl. destruct (is_addr a) eqn:Ha.
    + destruct vs as [|v vs]; [discriminate|]. inversion Hv as [|? ? Hv1 Hv2]; subst. cbn in Hl. destruct (IH vs ltac:(lia) Hv2) as (A & B & C & D).
      cbn [length filter negb]. rewrite Hv1, B. cbn [negb]. repeat split; auto.
      intros [|k] r Er Ar; cbn in *; [congruence|]. apply C; assumption.
    + destruct (IH vs Hl Hv) as (A & B & C & D). cbn [length filter negb]. rewrite Ha, B. cbn [negb]. rewrite D. repeat split; auto.
      intros [|k] r Er Ar; cbn in *; [congruence|]. apply C; assumption.
Qed.

Lemma filter_split_perm {A} (f : A -> bool) l : Permutation l (filter f l ++ filter (fun x => negb (f x)) l).
Proof.
  induction l as [|a l IH]; [reflexivity|]. cbn [filter]. destruct (f a); cbn [negb].
  - cbn. apply perm_skip, IH.
  - rewrite IH at 1. apply Permutation_middle.
Qed.

Lemma roundrobin_shuffled reads m : shuffled m (snd (AnswerShuffleRoundRobin reads m)).
Proof.
  unfold AnswerShuffleRoundRobin. destruct (Nat.ltb (length (m_answer m)) 2); [apply shuffled_refl|].
  destruct (match reads with Some _ => _ | None => _ end) as [sh|]; [|apply shuffled_refl].
  destruct (Nat.ltb (length (filter is_addr (m_answer m))) 2); [apply shuffled_refl|]. cbn [snd].
  set (vs := iter _ rotate_once _).
  assert (Pv : Permutation (filter is_addr (m_answer m)) vs) by apply iter_rotate_perm.
  destruct (put_addrs_spec (m_answer m) vs) as (A & B & C & D).
  - symmetry. apply Permutation_length, Pv.
  - apply Forall_forall. intros r Hr. apply (Permutation_in r (Permutation_sym Pv)) in Hr. apply filter_In in Hr. tauto.
  - split; [reflexivity|]. split; [|exact C]. cbn [m_answer set_answer].
    etransitivity; [apply (filter_split_perm is_addr)|]. symmetry. etransitivity; [apply (filter_split_perm is_addr)|].
    rewrite B, D. symmetry. apply Permutation_app_tail, Pv.
Qed.

(* the first address after k+1 rotations *)
Lemma rotate_hd d vs : vs <> [] -> nth 0 (rotate_once vs) d = nth (length vs - 1) vs d.
Proof.
  destruct vs as [|v vs]; [congruence|]. intros _. unfold rotate_once. change (nth 0 (?a :: ?b) d) with a.
  assert (G : forall x, last (v :: vs) x = nth (length (v :: vs) - 1) (v :: vs) d).
  { revert v. induction vs as [|w vs IH]; intros v x; [reflexivity|]. change (last (v :: w :: vs) x) with (last (w :: vs) x). rewrite IH.
    cbn [length]. replace (S (S (length vs)) - 1) with (S (S (length vs) - 1)) by lia. reflexivity. }
  apply G.
Qed.
Lemma rotate_nth d vs k : S k < length vs -> nth (S k) (rotate_once vs) d = nth k vs d.
Proof.
  destruct vs as [|v vs]; cbn [length]; [lia|]. intros H. unfold rotate_once. change (nth (S k) (?a :: ?b) d) with (nth k b d).
  rewrite (app_removelast_last (l := v :: vs) v) at 2 by discriminate. rewrite app_nth1; [reflexivity|].
  pose proof (app_removelast_last (l := v :: vs) v ltac:(discriminate)) as E. apply (f_equal (@length _)) in E. rewrite app_length in E. cbn [length] in E. lia.
Qed.
Lemma iter_length n vs : length (iter n rotate_once vs) = length vs.
Proof. symmetry. apply Permutation_length, iter_rotate_perm. Qed.

Lemma iter_nth d n : forall vs k, n <= length vs -> k < length vs ->
  nth k (iter n rotate_once vs) d = if Nat.ltb k n then nth (length vs - n + k) vs d else nth (k - n) vs d.
Proof.
  induction n as [|n IH]; intros vs k Hn Hk; cbn [iter].
  - destruct (Nat.ltb_spec k 0); [lia|]. rewrite Nat.sub_0_r. reflexivity.
  - destruct k as [|k].
    + rewrite rotate_hd by (intro E; apply (f_equal (@length _)) in E; rewrite iter_length in E; cbn in E; lia).
      rewrite iter_length, IH by lia. destruct (Nat.ltb_spec 0 (S n)); [|lia].
      destruct (Nat.ltb_spec (length vs - 1) n); [lia|]. f_equal. lia.
    + rewrite rotate_nth by (rewrite iter_length; lia). rewrite IH by lia.
      destruct (Nat.ltb_spec k n), (Nat.ltb_spec (S k) (S n)); try lia; f_equal; lia.
Qed.

Lemma plain_addr r : is_addr (plain r) = is_addr r. Proof. reflexivity. Qed.

Lemma hit_first reads m A d : addresses m = A -> 2 <= length A -> (reads = None -> snd (minTTL m) = true) ->
  fst (AnswerShuffleRoundRobin reads m) = Some (next_reads reads) /\
  nth 0 (addresses (snd (AnswerShuffleRoundRobin reads m))) (plain d) =
  nth (length A - 1 - N.to_nat (next_reads reads mod N.of_nat (length A))) A (plain d).
Proof.
  intros EA HA Hr. unfold AnswerShuffleRoundRobin.
  assert (Lf : length (filter is_addr (m_answer m)) = length A) by (rewrite <- EA; unfold addresses; rewrite map_length; reflexivity).
  assert (La : 2 <= length (m_answer m)) by (pose proof (filter_len is_addr (m_answer m)); lia).
  destruct (Nat.ltb_spec (length (m_answer m)) 2); [lia|].
  assert (Er : match reads with Some n => Some ((n + 1) mod 2 ^ 64)%N | None => if snd (minTTL m) then Some 0%N else None end = Some (next_reads reads)).
  { destruct reads; [reflexivity|]. rewrite (Hr eq_refl). reflexivity. }
  rewrite Er. destruct (Nat.ltb_spec (length (filter is_addr (m_answer m))) 2); [lia|]. cbn [fst snd]. split; [reflexivity|].
  unfold addresses at 1. cbn [m_answer set_answer].
  set (k := N.to_nat (next_reads reads mod N.of_nat (length (filter is_addr (m_answer m))))).
  assert (Hk : k < length A).
  { unfold k. rewrite Lf. assert (next_reads reads mod N.of_nat (length A) < N.of_nat (length A))%N by (apply N.mod_lt; lia). lia. }
  pose proof (iter_rotate_perm (S k) (filter is_addr (m_answer m))) as Pv.
  destruct (put_addrs_spec (m_answer m) (iter (S k) rotate_once (filter is_addr (m_answer m)))) as (_ & B & _ & _).
  { symmetry. apply Permutation_length, Pv. }
  { apply Forall_forall. intros r Hin. apply (Permutation_in r (Permutation_sym Pv)) in Hin. apply filter_In in Hin. tauto. }
  change address with is_addr in *. rewrite B, map_nth, iter_nth by lia. destruct (Nat.ltb_spec 0 (S k)); [|lia].
  rewrite <- EA. unfold addresses. change address with is_addr in *. rewrite map_nth. f_equal. f_equal. rewrite map_length. fold k. lia.
Qed.

Lemma hits_firsts d A ms : forall reads, 2 <= length A -> Forall (fun m => addresses m = A /\ snd (minTTL m) = true) ms ->
  (next_reads reads + N.of_nat (length ms) <= 2^64)%N ->
  firsts d (hits reads ms) = map (fun i => nth (length A - 1 - N.to_nat ((next_reads reads + N.of_nat i) mod N.of_nat (length A))) A (plain d)) (seq 0 (length ms)).
Proof.
  induction ms as [|m ms IH]; intros reads HA Hm Hb; [reflexivity|].
  inversion Hm as [|? ? [E1 E2] Hm2]; subst. cbn [hits firsts map length seq]. 
  destruct (hit_first reads m (addresses m) d eq_refl HA (fun _ => E2)) as [F1 F2]. f_equal.
  - rewrite F2. rewrite N.add_0_r. reflexivity.
  - rewrite F1. fold (firsts d). unfold firsts in IH. rewrite <- seq_shift, map_map. rewrite IH; auto.
    + apply map_ext_in. intros i Hi. apply in_seq in Hi. cbn [length] in Hb.
      assert (Hn : next_reads (Some (next_reads reads)) = (next_reads reads + 1)%N).
      { cbn [next_reads]. apply N.mod_small. lia. }
      rewrite Hn. do 4 f_equal. lia.
    + cbn [length] in Hb. destruct ms as [|m2 ms].
      * cbn [length]. cbn [next_reads]. assert ((next_reads reads + 1) mod 2^64 < 2^64)%N by (apply N.mod_lt; discriminate). lia.
      * cbn [next_reads length] in *. rewrite N.mod_small by lia. lia.
Qed.

Lemma residues_perm n (a : N) : (0 < n) -> Permutation (seq 0 n) (map (fun i => n - 1 - N.to_nat ((a + N.of_nat i) mod N.of_nat n)) (seq 0 n)).
Proof.
  intros Hn. symmetry. apply NoDup_Permutation_bis.
  - assert (G : forall l, NoDup l -> (forall i, In i l -> i < n) -> NoDup (map (fun i => n - 1 - N.to_nat ((a + N.of_nat i) mod N.of_nat n)) l)).
    { induction l as [|x l IH]; intros ND Hb; [constructor|]. inversion ND; subst. cbn [map]. constructor.
      - intro Hin. apply in_map_iff in Hin. destruct Hin as (y & E & Hy).
        assert (Bx : (x < n)) by (apply Hb; left; reflexivity). assert (By : (y < n)) by (apply Hb; right; assumption).
        assert (Lx : ((a + N.of_nat x) mod N.of_nat n < N.of_nat n)%N) by (apply N.mod_lt; lia).
        assert (Ly : ((a + N.of_nat y) mod N.of_nat n < N.of_nat n)%N) by (apply N.mod_lt; lia).
        assert (Em : ((a + N.of_nat x) mod N.of_nat n = (a + N.of_nat y) mod N.of_nat n)%N) by lia.
        apply H1. replace x with y; [assumption|].
        pose proof (N.div_mod (a + N.of_nat x) (N.of_nat n) ltac:(lia)) as D1. pose proof (N.div_mod (a + N.of_nat y) (N.of_nat n) ltac:(lia)) as D2.
        rewrite Em in D1. set (q1 := ((a + N.of_nat x) / N.of_nat n)%N) in *. set (q2 := ((a + N.of_nat y) / N.of_nat n)%N) in *.
        assert (q1 = q2) by nia. nia.
      - apply IH; [assumption|]. intros i Hi. apply Hb. right. exact Hi. }
    apply G; [apply seq_NoDup|]. intros i Hi. apply in_seq in Hi. lia.
  - rewrite map_length, seq_length. lia.
  - intros y Hy. apply in_map_iff in Hy. destruct Hy as (i & <- & _). apply in_seq. lia.
Qed.

Lemma map_nth_seq {A} (l : list A) d : map (fun i => nth i l d) (seq 0 (length l)) = l.
Proof.
  induction l as [|a l IH]; [reflexivity|]. cbn [length seq map]. f_equal. rewrite <- seq_shift, map_map. exact IH.
Qed.

Lemma roundrobin_cycle d A ms reads : 2 <= length A -> length ms = length A -> Forall (fun m => addresses m = A /\ snd (minTTL m) = true) ms ->
  (next_reads reads + N.of_nat (length ms) <= 2^64)%N ->
  Permutation A (firsts d (hits reads ms)).
Proof.
  intros HA Hl Hm Hb. rewrite (hits_firsts d A ms reads HA Hm Hb), Hl.
  rewrite <- (map_nth_seq A (plain d)) at 1.
  change (map (fun i => nth i A (plain d)) (seq 0 (length A))) with (map (fun i => nth i A (plain d)) (seq 0 (length A))).
  rewrite <- (map_map (fun i => length A - 1 - N.to_nat ((next_reads reads + N.of_nat i) mod N.of_nat (length A))) (fun i => nth i A (plain d))).
  apply Permutation_map. apply residues_perm. lia.
Qed.

Lemma min_loop_ends l : forall mn fd, fd = true \/ (exists r, In r l /\ (forall o, rr_data r <> DOPT o) /\ (rr_ttl r < mn)%N) -> snd (min_loop l mn fd) = true.
Proof.
  induction l as [|a l IH]; intros mn fd H; cbn [min_loop snd].
  - destruct H as [H|(r & [] & _)]. exact H.
  - assert (O : if is_opt a then exists o, rr_data a = DOPT o else True) by (unfold is_opt; destruct (rr_data a); eauto). destruct (is_opt a).
    + apply IH. destruct H as [H|(r & [<-|I] & T & L)]; [auto|destruct O as [o O]; destruct (T o O)|eauto].
    + destruct (N.ltb_spec (rr_ttl a) mn) as [L|L]; apply IH; [auto|]. destruct H as [H|(r & [<-|I] & T & L')]; [auto|lia|eauto].
Qed.
Lemma roundrobin_ends d A ms reads : 2 <= length A -> length ms = length A -> Forall (fun m => addresses m = A /\ ends m) ms ->
  (next_reads reads + N.of_nat (length ms) <= 2^64)%N ->
  Permutation A (firsts d (hits reads ms)).
Proof.
  intros HA Hl Hm. apply roundrobin_cycle; [exact HA|exact Hl|]. revert Hm. apply Forall_impl. intros m [E N]. split; [exact E|]. apply min_loop_ends. right. exact N.
Qed.
