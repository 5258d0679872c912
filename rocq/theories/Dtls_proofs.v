From Verif Require Import Base Bytes Dtls_model Dtls_spec.
Local Open Scope nat_scope.

Lemma conn_read_data l d e l' : conn_read l = (d, e, l') -> record_data l = d ++ record_data l' /\ (if e then 1 else 0) + faults l' >= faults l /\ length l' <= length l.
Proof.
  unfold conn_read. destruct l as [|[r|] l]; [intros [= <- <- <-]; cbn; auto| |intros [= <- <- <-]; cbn; repeat split; lia].
  cbn [record_data faults]. destruct (Nat.ltb_spec (N.to_nat 4096) (length r)) as [H|H]; intros [= <- <- <-]; cbn [length app];
  destruct (N.leb_spec (N.of_nat (length r)) 4096) as [G|G]; try lia; repeat split; lia.
Qed.
Lemma conn_read_faults l d e l' : conn_read l = (d, e, l') -> l <> [] -> (if e then 1 else 0) + faults l' = faults l.
Proof.
  unfold conn_read. destruct l as [|[r|] l]; [intros _ []; reflexivity| |intros [= <- <- <-] _; reflexivity].
  cbn [record_data faults]. destruct (Nat.ltb_spec (N.to_nat 4096) (length r)) as [H|H]; intros [= <- <- <-] _;
  destruct (N.leb_spec (N.of_nat (length r)) 4096) as [G|G]; lia.
Qed.

Lemma read_data n s d e s' : dtls_read n s = (d, e, s') -> stream s = d ++ stream s' /\ length d <= n.
Proof.
  destruct s as [buf l]. unfold dtls_read, stream. destruct buf as [|x buf].
  - destruct (conn_read l) as [[d' e'] l'] eqn:E. intros [= <- <- <-]. cbn [fst snd]. apply conn_read_data in E. destruct E as (-> & _).
    split; [cbn [app]; rewrite app_assoc, firstn_skipn; reflexivity|apply firstn_le_length].
  - intros H. injection H as <- <- <-. cbn [fst snd]. rewrite app_assoc, firstn_skipn. split; [reflexivity|apply firstn_le_length].
Qed.

Theorem reads_stream sizes s outs s' : dtls_reads sizes s = (outs, s') ->
  stream s = List.concat (map fst outs) ++ stream s' /\ Forall2 (fun o n => length (fst o) <= n) outs sizes.
Proof.
  revert s outs. induction sizes as [|n sizes IH]; intros s outs; cbn [dtls_reads].
  - intros [= <- <-]. split; [reflexivity|constructor].
  - destruct (dtls_read n s) as [[d e] s1] eqn:E. destruct (dtls_reads sizes s1) as [o s2] eqn:R. intros [= <- <-]. apply IH in R. apply read_data in E.
    destruct R as [R1 R2], E as [E1 E2]. split; [cbn [map List.concat fst]; rewrite E1, R1; apply app_assoc|constructor; assumption].
Qed.

(** Work left: octets and records *)
Definition left (s : dtls) : nat := length (fst s) + length (snd s) + length (record_data (snd s)).

Lemma read_progress n s d e s' : 0 < n -> dtls_read n s = (d, e, s') -> stream s <> [] \/ snd s <> [] -> left s' < left s.
Proof.
  intros N. destruct s as [buf l]. unfold dtls_read, left, stream. cbn [fst snd]. destruct buf as [|x buf].
  - destruct (conn_read l) as [[d' e'] l'] eqn:E. intros [= <- <- <-] H. cbn [fst snd]. rewrite skipn_length.
    pose proof (conn_read_data _ _ _ _ E) as (D & _ & L). rewrite D, app_length. assert (NE : l <> []) by (destruct H as [H|H]; [|exact H]; intros ->; apply H; reflexivity).
    unfold conn_read in E. destruct l as [|[r|] l]; [contradiction| |injection E as <- <- <-; cbn; lia].
    destruct (Nat.ltb _ _); injection E as <- <- <-; cbn [length] in *; lia.
  - intros H _. injection H as <- <- <-. cbn [fst snd]. rewrite skipn_length. cbn [length]. lia.
Qed.
Lemma read_left n s d e s' : dtls_read n s = (d, e, s') -> left s' <= left s.
Proof.
  destruct s as [buf l]. unfold dtls_read, left. cbn [fst snd]. destruct buf as [|x buf].
  - destruct (conn_read l) as [[d' e'] l'] eqn:E. intros [= <- <- <-]. cbn [fst snd]. rewrite skipn_length. apply conn_read_data in E. destruct E as (-> & _ & L). rewrite app_length. cbn. lia.
  - intros H. injection H as <- <- <-. cbn [fst snd]. rewrite skipn_length. lia.
Qed.

Theorem reads_all sizes s outs s' : dtls_reads sizes s = (outs, s') -> Forall (fun n => 0 < n) sizes -> left s <= length sizes -> stream s' = [].
Proof.
  revert s outs. induction sizes as [|n sizes IH]; intros s outs; cbn [dtls_reads].
  - intros [= <- <-] _ H. destruct s as [buf l]. unfold left, stream in *. cbn [fst snd length] in *. destruct buf; [|cbn in H; lia]. destruct (record_data l); [reflexivity|cbn in H; lia].
  - destruct (dtls_read n s) as [[d e] s1] eqn:E. destruct (dtls_reads sizes s1) as [o s2] eqn:R. intros [= <- <-] F H. inversion F as [|? ? F1 F2]; subst.
    cbn [length] in H. apply (IH _ _ R F2).
    assert (C : (stream s <> [] \/ snd s <> []) \/ left s = 0).
    { destruct s as [[|x buf] [|i l]]; [right; reflexivity|left; right; discriminate|left; left; discriminate|left; right; discriminate]. }
    destruct C as [C|C]; [pose proof (read_progress _ _ _ _ _ F1 E C); lia|pose proof (read_left _ _ _ _ _ E); lia].
Qed.

(** Errors *)
Theorem reads_errors sizes s outs s' : dtls_reads sizes s = (outs, s') -> Forall (fun n => 0 < n) sizes ->
  length (filter snd outs) >= faults (snd s) - faults (snd s') /\ (snd s' <> [] -> length (filter snd outs) + faults (snd s') = faults (snd s)).
Proof.
  revert s outs. induction sizes as [|n sizes IH]; intros s outs; cbn [dtls_reads].
  - intros [= <- <-] _. cbn. lia.
  - destruct (dtls_read n s) as [[d e] s1] eqn:E. destruct (dtls_reads sizes s1) as [o s2] eqn:R. intros [= <- <-] F. inversion F as [|? ? F1 F2]; subst.
    destruct (IH _ _ R F2) as [H1 H2]. cbn [filter snd].
    assert (P : faults (snd s) <= (if e then 1 else 0) + faults (snd s1) /\ (snd s1 <> [] -> faults (snd s) = (if e then 1 else 0) + faults (snd s1))).
    { destruct s as [buf l]. unfold dtls_read in E. destruct buf as [|x buf].
      - destruct (conn_read l) as [[d' e'] l'] eqn:C. injection E as <- <- <-. cbn [snd]. pose proof (conn_read_data _ _ _ _ C) as (_ & G & _).
        split; [lia|]. intros N. symmetry. apply (conn_read_faults _ _ _ _ C). intros ->. cbn in C. injection C as <- <- <-. contradiction.
      - injection E as <- <- <-. cbn [snd]. split; [lia|lia]. }
    assert (Q : snd s2 <> [] -> snd s1 <> []).
    { clear -R. revert s1 o R. induction sizes as [|m sizes IH]; intros s1 o; cbn [dtls_reads]; [intros [= <- <-]; auto|].
      destruct (dtls_read m s1) as [[d e] s3] eqn:E. destruct (dtls_reads sizes s3) as [o' s4] eqn:R. intros [= <- <-] N. pose proof (IH _ _ R N) as K.
      intros Z. apply K. destruct s1 as [buf l]. cbn [snd] in Z. subst l. unfold dtls_read in E. destruct buf; injection E as <- <- <-; reflexivity. }
    destruct P as [P1 P2]. split; [destruct e; cbn [length]; lia|]. intros N. specialize (H2 N). specialize (P2 (Q N)). destruct e; cbn [length]; lia.
Qed.

(** Whole messages *)
Lemma read_noerr n s d e s' : dtls_read n s = (d, e, s') -> faults (snd s) = 0 -> stream s <> [] -> e = false /\ faults (snd s') = 0.
Proof.
  destruct s as [buf l]. unfold dtls_read, stream. cbn [fst snd]. destruct buf as [|x buf].
  - destruct (conn_read l) as [[d' e'] l'] eqn:C. intros [= <- <- <-] F N. cbn [snd]. assert (NE : l <> []) by (intros ->; apply N; reflexivity).
    pose proof (conn_read_faults _ _ _ _ C NE) as H. destruct e'; [lia|]. split; [reflexivity|lia].
  - intros H F _. injection H as <- <- <-. split; [reflexivity|exact F].
Qed.
Theorem full_read fuel n s : faults (snd s) = 0 -> n <= length (stream s) -> left s <= fuel ->
  exists s', read_full fuel n s = Some (Some (firstn n (stream s)), s') /\ stream s' = skipn n (stream s) /\ faults (snd s') = 0 /\ left s' <= left s.
Proof.
  revert n s. induction fuel as [|fuel IH]; intros n s F L W.
  - assert (stream s = []) as Z. { destruct s as [buf l]. unfold left, stream in *. cbn [fst snd] in *. destruct buf; [|cbn in W; lia]. destruct (record_data l); [reflexivity|cbn in W; lia]. }
    rewrite Z in *. cbn [length] in L. assert (n = 0) as -> by lia. exists s. cbn. repeat split; try assumption. lia.
  - cbn [read_full]. destruct (Nat.eqb_spec n 0) as [->|N]; [exists s; repeat split; try assumption; lia|].
    assert (NE : stream s <> []) by (intros Z; rewrite Z in L; cbn in L; lia).
    destruct (dtls_read n s) as [[d e] s1] eqn:E. pose proof (read_data _ _ _ _ _ E) as [D DL]. pose proof (read_noerr _ _ _ _ _ E F NE) as [-> F1].
    pose proof (read_progress n s d false s1 ltac:(lia) E (or_introl NE)) as P.
    destruct (Nat.leb_spec n (length d)) as [G|G].
    + assert (length d = n) by lia. exists s1. rewrite D, firstn_app, skipn_app, firstn_all2, skipn_all2 by lia. replace (n - length d) with 0 by lia.
      cbn [firstn skipn]. rewrite app_nil_r. repeat split; try assumption; lia.
    + destruct (IH (n - length d) s1) as (s' & R & S' & F' & W'); [exact F1|rewrite D, app_length in L; lia|lia|]. rewrite R. exists s'.
      rewrite D, firstn_app, skipn_app, (firstn_all2 d), (skipn_all2 d) by lia. repeat split; try assumption; lia.
Qed.
