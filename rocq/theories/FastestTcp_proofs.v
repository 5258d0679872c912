(** Lemmas about fastest-tcp. *)
From Verif Require Import Base Bytes Dns FastestTcp_model FastestTcp_spec.
From Coq Require Import ZifyBool ZifyNat ZifyN.
Local Open Scope nat_scope.

Lemma raise_raised m r : raised m r (raise_ttl m r).
Proof.
  unfold raised, raise_ttl. destruct (N.ltb_spec (rr_ttl r) m); cbn [set_ttl rr_name rr_type rr_class rr_data rr_ttl]; repeat split; lia.
Qed.
Lemma probe_ok_iff c x : probe_ok c x = true <-> succeeded c x.
Proof.
  unfold probe_ok, succeeded. destruct (nth_error c (fst x)) as [r|].
  - split.
    + intros H. destruct (rr_data r) eqn:D; try discriminate H; (split; [exact H|]; exists r; split; [reflexivity|]; exists ip; rewrite D; auto).
    + intros (H & r' & E & ip & D). injection E as <-. destruct D as [D|D]; rewrite D; exact H.
  - split; [discriminate|]. intros (_ & r & E & _). discriminate E.
Qed.

Lemma merge_replaced T l : forall ns, length ns <= length (filter (fun r => N.eqb (rr_type r) T) l) -> replaced T l ns (merge T l ns).
Proof.
  induction l as [|r l IH]; intros ns H; cbn [filter length merge] in *; [destruct ns; [constructor|cbn [length] in H; lia]|].
  destruct ns as [|n ns]; [constructor|]. destruct (N.eqb_spec (rr_type r) T) as [E|E].
  - apply rep_hit; [exact E|]. apply IH. cbn [length] in H. lia.
  - apply rep_miss; [exact E|]. apply IH, H.
Qed.

(** ** Orders *)
Lemma collect_iff c n : forall arr ks, collect c n arr = Some ks <-> exists a b, arr = a ++ b /\ length a = n /\ Forall (succeeded c) a /\ ks = map fst a.
Proof.
  induction n as [|n IH]; intros arr ks; cbn [collect].
  - split.
    + intros E. injection E as <-. exists [], arr. repeat split; constructor.
    + intros (a & b & _ & L & _ & ->). destruct a; [reflexivity|discriminate L].
  - destruct arr as [|x arr].
    + split; [discriminate|]. intros ([|y a] & b & E & L & _); [discriminate L|discriminate E].
    + destruct (probe_ok c x) eqn:P.
      * split.
        -- destruct (collect c n arr) as [ks'|] eqn:C; [|discriminate]. intros E. injection E as <-. apply IH in C.
           destruct C as (a & b & -> & L & F & ->). exists (x :: a), b. split; [reflexivity|]. split; [cbn [length]; lia|].
           split; [constructor; [apply probe_ok_iff, P|exact F]|reflexivity].
        -- intros ([|y a] & b & E & L & F & ->); [discriminate L|]. injection E as <- ->. inversion F as [|? ? _ F']; subst.
           replace (collect c n (a ++ b)) with (Some (map fst a)); [reflexivity|]. symmetry. apply IH. exists a, b. repeat split; [|exact F'].
           cbn [length] in L. lia.
      * split; [discriminate|]. intros ([|y a] & b & E & L & F & _); [discriminate L|]. injection E as <- ->. inversion F as [|? ? S _]; subst.
        apply probe_ok_iff in S. congruence.
Qed.
Lemma bounded_length l : forall n, NoDup l -> Forall (fun k => k < n) l -> length l <= n.
Proof.
  intros n N F. rewrite <- (seq_length n 0). apply NoDup_incl_length; [exact N|]. intros k Hk. rewrite Forall_forall in F. apply in_seq. specialize (F k Hk). lia.
Qed.
Lemma full_perm l n : NoDup l -> Forall (fun k => k < n) l -> length l = n -> Permutation l (seq 0 n).
Proof.
  intros N F L. apply NoDup_Permutation_bis; [exact N|rewrite seq_length; lia|]. intros k Hk. rewrite Forall_forall in F. apply in_seq. specialize (F k Hk). lia.
Qed.

Lemma rotate_no h l : NoDup l -> ~ In h l -> rotate h l = match l with [] => [] | _ => h :: removelast l end.
Proof.
  revert h. induction l as [|x l IH]; intros h N H; [reflexivity|]. cbn [rotate]. cbn [In] in H.
  destruct (Nat.eqb_spec x h) as [->|E]; [exfalso; apply H; left; reflexivity|]. inversion N as [|? ? Nx N']; subst.
  rewrite (IH x N' Nx). destruct l as [|y l]; reflexivity.
Qed.
(** The loop: the record is put in front; unless it was the first or last one, it also stays where it was
    and the last one is lost. *)
Lemma rotate_in a h b : NoDup (a ++ h :: b) -> rotate h (a ++ h :: b) =
  match a with [] => h :: b | _ => h :: a ++ match b with [] => [] | _ => h :: removelast b end end.
Proof.
  intros N. destruct a as [|x a].
  - cbn [app rotate]. rewrite Nat.eqb_refl. reflexivity.
  - cbn [app rotate]. destruct (Nat.eqb_spec x h) as [->|E].
    + exfalso. cbn [app] in N. inversion N as [|? ? Nx _]. apply Nx, in_or_app. right. left. reflexivity.
    + f_equal. cbn [app] in N. inversion N as [|? ? Nx N']; subst. clear N.
      revert x Nx E. induction a as [|y a IH]; intros x Nx E; cbn [app rotate].
      * destruct (Nat.eqb_spec h x) as [->|_]; [exfalso; apply Nx; left; reflexivity|]. f_equal. cbn [app] in N'. inversion N' as [|? ? Nh Nb]; subst.
        rewrite rotate_no by assumption. reflexivity.
      * destruct (Nat.eqb_spec y x) as [->|_]; [exfalso; apply Nx; left; reflexivity|]. f_equal. cbn [app] in N'. inversion N' as [|? ? Ny Na]; subst.
        apply IH; [exact Na|exact Ny|]. intros ->. apply Ny, in_or_app. right. left. reflexivity.
Qed.
Lemma seq_split k n : k < n -> seq 0 n = seq 0 k ++ k :: seq (S k) (n - S k).
Proof. intros H. replace n with (k + S (n - S k)) at 1 by lia. rewrite seq_app. reflexivity. Qed.
Lemma removelast_seq s n : removelast (seq s n) = seq s (n - 1).
Proof.
  revert s. induction n as [|n IH]; intros s; [reflexivity|]. cbn [seq]. destruct n as [|n]; [reflexivity|].
  cbn [removelast]. change (seq (S s) (S n)) with (S s :: seq (S (S s)) n) at 1. rewrite IH. cbn [Nat.sub seq]. rewrite Nat.sub_0_r. reflexivity.
Qed.
Lemma rotate_seq k n : k < n -> rotate k (seq 0 n) =
  if Nat.eqb k 0 then seq 0 n else k :: seq 0 k ++ (if Nat.eqb (S k) n then [] else k :: seq (S k) (n - k - 2)).
Proof.
  intros H. rewrite (seq_split k n H) at 1. rewrite rotate_in by (rewrite <- (seq_split k n H); apply seq_NoDup).
  destruct k as [|k]; [rewrite (seq_split 0 n H); reflexivity|]. change (Nat.eqb (S k) 0) with false. cbn iota.
  change (seq 0 (S k)) with (0 :: seq 1 k). cbn [app]. f_equal. f_equal. f_equal.
  destruct (Nat.eqb_spec (S (S k)) n) as [E|E].
  - replace (n - S (S k)) with 0 by lia. reflexivity.
  - destruct (n - S (S k)) as [|m] eqn:Em; [lia|]. cbn [seq]. f_equal. change (S (S k) :: seq (S (S (S k))) m) with (seq (S (S k)) (S m)). rewrite removelast_seq.
    f_equal. lia.
Qed.

(** ** Resolve *)
Lemma in_order_map m c ks : Forall (fun k => k < length c) ks -> in_order m c ks (map (fun k => raise_ttl m (nth k c (RR "" 0 0 0 (DOTHER [])))) ks).
Proof.
  induction 1 as [|k ks H _ IH]; [constructor|]. cbn [map]. constructor; [|exact IH]. exists (nth k c (RR "" 0 0 0 (DOTHER []))).
  split; [apply nth_error_nth'; exact H|apply raise_raised].
Qed.

(** The order of the records for given probes *)
Definition order_of (waitAll : bool) (n : nat) (arr : arrivals) : list nat :=
  if waitAll then map fst arr
  else match arr with
       | (k, _) :: _ => if Nat.eqb k 0 then seq 0 n else k :: seq 0 k ++ (if Nat.eqb (S k) n then [] else k :: seq (S k) (n - k - 2))
       | [] => []
       end.

Lemma probing (waitAll : bool) (c : list rr) (arr : list (nat * bool)) : probes (length c) arr ->
  (if waitAll then probeAll c arr else probeFastest c arr) = Some (order_of waitAll (length c) arr) /\ usable waitAll c arr \/
  (if waitAll then probeAll c arr else probeFastest c arr) = None /\ ~ usable waitAll c arr.
Proof.
  intros [N F]. assert (B : length arr <= length c).
  { rewrite <- (map_length fst arr). apply bounded_length; [exact N|]. apply Forall_map. exact F. }
  destruct waitAll; unfold usable, order_of.
  - unfold probeAll. destruct (collect c (length c) arr) as [ks|] eqn:C.
    + left. apply collect_iff in C. destruct C as (a & b & -> & L & S & ->). rewrite app_length in B.
      assert (b = []) as -> by (destruct b; [reflexivity|cbn [length] in B; lia]). rewrite app_nil_r in *. split; [reflexivity|]. split; assumption.
    + right. split; [reflexivity|]. intros [L S]. assert (X : collect c (length c) arr = Some (map fst arr)) by (apply collect_iff; exists arr, []; rewrite app_nil_r; repeat split; assumption).
      congruence.
  - unfold probeFastest. destruct arr as [|[k ok] arr]; [right; split; [reflexivity|]; intros (x & rest & E & _); discriminate E|].
    inversion F as [|? ? Hk _]; subst. cbn [fst] in *. destruct (probe_ok c (k, ok)) eqn:P.
    + left. rewrite rotate_seq by exact Hk. split; [reflexivity|]. exists (k, ok), arr. split; [reflexivity|apply probe_ok_iff, P].
    + right. split; [reflexivity|]. intros (x & rest & E & S). injection E as <- _. apply probe_ok_iff in S. congruence.
Qed.

Lemma order_bounded waitAll n arr : probes n arr -> (waitAll = false -> arr <> []) -> Forall (fun k => k < n) (order_of waitAll n arr).
Proof.
  intros [N F] NE. unfold order_of. destruct waitAll; [apply Forall_map; exact F|]. destruct arr as [|[k ok] arr]; [constructor|].
  inversion F as [|? ? Hk _]; subst. cbn [fst] in Hk. apply Forall_forall. intros j Hj. destruct (Nat.eqb_spec k 0) as [->|K0].
  - apply in_seq in Hj. lia.
  - destruct Hj as [<-|Hj]; [exact Hk|]. apply in_app_or in Hj. destruct Hj as [Hj|Hj]; [apply in_seq in Hj; lia|].
    destruct (Nat.eqb_spec (S k) n) as [E|E]; [destruct Hj|]. destruct Hj as [<-|Hj]; [exact Hk|apply in_seq in Hj; lia].
Qed.
Lemma order_length (waitAll : bool) n (arr : list (nat * bool)) : probes n arr -> (if waitAll then length arr = n else arr <> []) -> length (order_of waitAll n arr) = n.
Proof.
  intros [N F] H. unfold order_of. destruct waitAll; [rewrite map_length; exact H|]. destruct arr as [|[k ok] arr]; [contradiction|].
  inversion F as [|? ? Hk _]; subst. cbn [fst] in Hk. destruct (Nat.eqb_spec k 0) as [->|K0]; [apply seq_length|]. cbn [length]. rewrite app_length, seq_length.
  destruct (Nat.eqb_spec (S k) n) as [E|E]; cbn [length]; [lia|rewrite seq_length; lia].
Qed.

Theorem reordered waitAll ttlmin arr q a T : applies q a T -> let c := candidates T (m_answer a) in probes (length c) arr -> usable waitAll c arr ->
  exists b ns, fastest_tcp waitAll ttlmin arr q (Ans a) = Some (Ans b) /\ same_but_answer a b /\
    replaced T (m_answer a) ns (m_answer b) /\ in_order ttlmin c (order_of waitAll (length c) arr) ns.
Proof.
  intros (x & l & Q & Ty & TT & L2) c P U. unfold fastest_tcp. rewrite Q, Ty.
  replace (negb (N.eqb T TypeA) && negb (N.eqb T TypeAAAA)) with false by (destruct TT as [->| ->]; reflexivity).
  change (probe_set T (m_answer a)) with c. cbv zeta. replace (Nat.ltb (length c) 2) with false by (symmetry; apply Nat.ltb_ge; exact L2).
  destruct (probing waitAll c arr P) as [[-> _]|[_ NU]]; [|contradiction].
  assert (NE : if waitAll then length arr = length c else arr <> []).
  { destruct waitAll; [apply U|]. destruct U as (y & rest & -> & _). discriminate. }
  assert (OB : Forall (fun k => k < length c) (order_of waitAll (length c) arr)) by (apply order_bounded; [exact P|intros ->; exact NE]).
  eexists. eexists. split; [reflexivity|]. split; [repeat split|]. split; [|apply in_order_map, OB].
  cbn [set_answer m_answer]. apply merge_replaced. rewrite map_length, (order_length waitAll (length c) arr P NE). unfold c, candidates. rewrite firstn_length. lia.
Qed.

Theorem not_reordered waitAll ttlmin arr q r : 
  match r with Ans a => m_question q <> [] /\ forall T, applies q a T -> let c := candidates T (m_answer a) in probes (length c) arr /\ ~ usable waitAll c arr | _ => True end ->
  fastest_tcp waitAll ttlmin arr q r = Some r.
Proof.
  destruct r as [a| |e]; [|reflexivity|reflexivity]. intros [NQ H]. unfold fastest_tcp. destruct (m_question q) as [|x l] eqn:Q; [contradiction|].
  destruct (negb (N.eqb (q_type x) TypeA) && negb (N.eqb (q_type x) TypeAAAA)) eqn:TT; [reflexivity|]. cbv zeta.
  change (probe_set (q_type x) (m_answer a)) with (candidates (q_type x) (m_answer a)).
  destruct (Nat.ltb_spec (length (candidates (q_type x) (m_answer a))) 2) as [L|L]; [reflexivity|].
  assert (A : applies q a (q_type x)).
  { exists x, l. split; [exact Q|]. split; [reflexivity|]. split; [|exact L]. unfold TypeA, TypeAAAA in TT.
    destruct (N.eqb_spec (q_type x) 1) as [->|]; [left; reflexivity|]. destruct (N.eqb_spec (q_type x) 28) as [->|]; [right; reflexivity|discriminate TT]. }
  destruct (H _ A) as [P NU]. destruct (probing waitAll _ arr P) as [[_ U]|[-> _]]; [contradiction|reflexivity].
Qed.

(** When the records stay the same *)
Theorem order_perm (waitAll : bool) n (arr : list (nat * bool)) : probes n arr -> (if waitAll then length arr = n else exists k ok rest, arr = (k, ok) :: rest /\ (k = 0 \/ S k = n)) ->
  Permutation (order_of waitAll n arr) (seq 0 n).
Proof.
  intros [N F] H. unfold order_of. destruct waitAll.
  - apply full_perm; [exact N|apply Forall_map; exact F|rewrite map_length; exact H].
  - destruct H as (k & ok & rest & -> & K). inversion F as [|? ? Hk _]; subst. cbn [fst] in Hk.
    destruct (Nat.eqb_spec k 0) as [->|K0]; [apply Permutation_refl|]. destruct K as [->|K]; [contradiction|]. subst n. rewrite Nat.eqb_refl, app_nil_r.
    rewrite seq_S. cbn [Nat.add]. apply Permutation_cons_append.
Qed.
(** The fastest one is first. *)
Theorem order_first waitAll n k ok rest : order_of waitAll n ((k, ok) :: rest) = k :: tl (order_of waitAll n ((k, ok) :: rest)) \/ n = 0.
Proof.
  unfold order_of. destruct waitAll; [left; reflexivity|]. destruct (Nat.eqb_spec k 0) as [->|]; [|left; reflexivity].
  destruct n; [right; reflexivity|left; reflexivity].
Qed.
(** The rest keeps its order. *)
Theorem order_rest n k ok rest : k < n -> k = 0 \/ S k = n -> tl (order_of false n ((k, ok) :: rest)) = filter (fun j => negb (Nat.eqb j k)) (seq 0 n).
Proof.
  intros H K. assert (G : forall s m, (forall j, In j (seq s m) -> j <> k) -> filter (fun j => negb (Nat.eqb j k)) (seq s m) = seq s m).
  { intros s m. revert s. induction m as [|m IH]; intros s D; [reflexivity|]. cbn [seq filter].
    assert (s <> k) by (apply D; left; reflexivity). replace (Nat.eqb s k) with false by lia. cbn [negb]. f_equal. apply IH. intros j Hj. apply D. right. exact Hj. }
  unfold order_of. rewrite (seq_split k n H) at 2. rewrite filter_app. cbn [filter]. rewrite Nat.eqb_refl. cbn [negb].
  rewrite (G 0 k), (G (S k) (n - S k)) by (intros j Hj; apply in_seq in Hj; lia).
  destruct (Nat.eqb_spec k 0) as [->|K0]; [cbn [seq app]; destruct n; [lia|cbn [tl seq]; f_equal; lia]|].
  destruct K as [->|K]; [contradiction|]. subst n. rewrite Nat.eqb_refl, app_nil_r. replace (S k - S k) with 0 by lia. cbn [seq tl]. rewrite app_nil_r. reflexivity.
Qed.

Theorem reordered_spec (waitAll : bool) ttlmin arr q a T : applies q a T -> let c := candidates T (m_answer a) in probes (length c) arr -> usable waitAll c arr ->
  exists b ns ks, fastest_tcp waitAll ttlmin arr q (Ans a) = Some (Ans b) /\ same_but_answer a b /\
    replaced T (m_answer a) ns (m_answer b) /\ in_order ttlmin c ks ns /\ length ks = length c /\
    (exists x, hd_error arr = Some x /\ hd_error ks = Some (fst x)) /\
    if waitAll then ks = map fst arr /\ Permutation ks (seq 0 (length c))
    else forall x, hd_error arr = Some x -> fst x = 0 \/ S (fst x) = length c ->
         Permutation ks (seq 0 (length c)) /\ tl ks = filter (fun j => negb (Nat.eqb j (fst x))) (seq 0 (length c)).
Proof.
  intros A c P U. destruct (reordered waitAll ttlmin arr q a T A P U) as (b & ns & R & SB & RP & IO).
  exists b, ns, (order_of waitAll (length c) arr). fold c in IO. split; [exact R|]. split; [exact SB|]. split; [exact RP|]. split; [exact IO|].
  assert (C2 : 2 <= length c) by (destruct A as (x & l & _ & _ & _ & L2); exact L2).
  assert (NE : if waitAll then length arr = length c else arr <> []).
  { destruct waitAll; [apply U|]. destruct U as (y & rest & -> & _). discriminate. }
  split; [apply order_length; assumption|]. destruct arr as [|[k ok] rest].
  { exfalso. destruct waitAll; [cbn [length] in NE; lia|apply NE; reflexivity]. }
  split.
  { exists (k, ok). split; [reflexivity|]. destruct (order_first waitAll (length c) k ok rest) as [->|E]; [reflexivity|lia]. }
  destruct waitAll.
  - split; [reflexivity|]. apply (order_perm true); assumption.
  - intros x E K. injection E as <-. cbn [fst] in *. split.
    + apply (order_perm false); [exact P|]. exists k, ok, rest. split; [reflexivity|exact K].
    + apply order_rest; [|exact K]. destruct P as [_ F]. inversion F; assumption.
Qed.

(** ** A record is lost *)
Definition ft_q : msg := Msg 9 false 0 false false true false false false 0 [Q "w.a." 1 1] [] [] [].
Definition ft_rr (n : N) : rr := RR "w.a." 1 1 60 (DA [192;0;2;n]%N).
Definition ft_a : msg := Msg 9 true 0 false false true true false false 0 [Q "w.a." 1 1] [RR "w.a." 46 1 60 (DOTHER []); ft_rr 1; ft_rr 2; ft_rr 3] [] [].
Lemma lost_refuted : exists b, fastest_tcp false 300 [(1, true)] ft_q (Ans ft_a) = Some (Ans b) /\
  m_answer b = [RR "w.a." 46 1 60 (DOTHER []); set_ttl 300 (ft_rr 2); set_ttl 300 (ft_rr 1); set_ttl 300 (ft_rr 2)].
Proof. eexists. split; vm_compute; reflexivity. Qed.
Lemma ft_hyps : applies ft_q ft_a 1 /\ probes 3 [(2, true); (0, true); (1, true)] /\
  usable true (candidates 1 (m_answer ft_a)) [(2, true); (0, true); (1, true)] /\ usable false (candidates 1 (m_answer ft_a)) [(2, true); (0, true); (1, true)].
Proof.
  assert (S : Forall (succeeded (candidates 1 (m_answer ft_a))) [(2, true); (0, true); (1, true)]).
  { repeat constructor; (eexists; split; [reflexivity|]; eexists; left; reflexivity). }
  split; [exists (Q "w.a." 1 1), []; repeat split; [left; reflexivity|cbn; lia]|]. split.
  - split; [repeat constructor; cbn; intuition discriminate|repeat constructor; cbn; lia].
  - split; [split; [reflexivity|exact S]|]. exists (2, true), [(0, true); (1, true)]. split; [reflexivity|]. inversion S; assumption.
Qed.
Lemma ft_run : option_map (fun r => match r with Ans b => map rr_data (m_answer b) | _ => [] end) (fastest_tcp true 0 [(2, true); (0, true); (1, true)] ft_q (Ans ft_a)) =
  Some [DOTHER []; DA [192;0;2;3]%N; DA [192;0;2;1]%N; DA [192;0;2;2]%N].
Proof. vm_compute. reflexivity. Qed.
