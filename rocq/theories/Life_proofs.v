(** Proofs about the life of a listener. *)
From Verif Require Import Base Life_model Life_spec.
From Coq Require Import Lia.
Local Open Scope nat_scope.

Lemma Forall_put {A} (P : A -> Prop) i x l : Forall P l -> P x -> Forall P (put i x l).
Proof.
  revert i; induction l as [|y l IH]; intros [|i] H Hx; cbn; auto; inversion H; subst; constructor; auto.
Qed.
Lemma nth_put {A} (x : A) : forall i l y, nth_error l i = Some y -> nth_error (put i x l) i = Some x.
Proof. induction i as [|i IH]; intros [|z l] y H; cbn in *; try discriminate; eauto. Qed.
Lemma in_put_other {A} (x z : A) : forall i l y, nth_error l i = Some y -> In z l -> z <> y -> In z (put i x l).
Proof.
  induction i as [|i IH]; intros [|w l] y H Hin Hz; cbn in *; try discriminate.
  - injection H as ->. destruct Hin as [<-|?]; [congruence|]. auto.
  - destruct Hin as [<-|?]; auto. right. eauto.
Qed.

Definition tok (k : kind) (s : st) (t : tpc) : Prop :=
  match k, t with
  | Dns _ _, Begin => True | Dns _ _, Wait => down s = true | Dns _ _, Done Took => shut s = true | Dns _ _, Done NotStarted => True
  | Http, Begin => True | Http, Wait => down s = true | Http, Done Took => down s = true /\ inflight s = 0 | Http, Done Ignored => True
  | Quic, Begin => True | Quic, Close1 => pub s = true | Quic, Close2 => down s = true | Quic, Close3 => down s = true /\ dead s = true
  | Quic, Done Took => down s = true /\ dead s = true /\ sock s = false | Quic, Done Ignored => True
  | Doq, Begin => True | Doq, Close1 => pub s = true | Doq, Close2 => down s = true | Doq, Close3 => down s = true /\ dead s = true
  | Doq, Done Took => down s = true /\ dead s = true /\ sock s = false | Doq, Done Ignored => True
  | Xs, Begin => True | Xs, Done Took => down s = true
  | _, _ => False
  end.
Definition ginv (k : kind) (s : st) : Prop :=
  (is_quic k = false -> lost s = 0) /\
  match k with
  | Dns u a =>
      match pc s with
      | Fresh => sock s = false /\ pub s = false /\ down s = false /\ shut s = false /\ inflight s = 0
      | Made => False
      | Bound => a = true /\ pub s = false /\ down s = false /\ shut s = false /\ inflight s = 0
      | Serving => pub s = true /\ shut s = false
      | Draining _ => pub s = true /\ shut s = false
      | Returned b => shut s = true /\ pub s = true /\ inflight s = 0 /\ sock s = false \/
                      shut s = false /\ pub s = false /\ down s = false /\ inflight s = 0 /\ b = false /\ (sock s = true -> u = true /\ a = true)
      end
  | Http =>
      match pc s with
      | Fresh => sock s = false /\ pub s = false /\ down s = false /\ inflight s = 0
      | Made => sock s = false /\ pub s = true /\ inflight s = 0
      | Bound => pub s = true /\ inflight s = 0
      | Serving => pub s = true /\ (down s = true -> sock s = false)
      | Draining _ => False
      | Returned _ => sock s = false /\ pub s = true
      end
  | Quic | Doq =>
      (dead s = true -> inflight s = 0 /\ down s = true) /\
      match pc s with
      | Fresh => sock s = false /\ pub s = false /\ down s = false /\ dead s = false /\ inflight s = 0
      | Bound => pub s = false /\ down s = false /\ dead s = false /\ inflight s = 0
      | Serving => pub s = true
      | Returned b => (b = true -> down s = true) /\ (b = false -> pub s = false -> sock s = false /\ inflight s = 0 /\ down s = false)
      | _ => False
      end
  | Xs =>
      match pc s with
      | Fresh => sock s = false /\ pub s = false /\ inflight s = 0
      | Bound => pub s = false /\ inflight s = 0
      | Serving => pub s = true /\ (down s = true -> sock s = false)
      | Returned b => (sock s = true -> b = false /\ down s = false /\ pub s = true) /\ (pub s = false -> inflight s = 0)
      | _ => False
      end
  end.
Definition inv (k : kind) (s : st) : Prop := ginv k s /\ Forall (tok k s) (stops s).

Ltac split_ifs :=
  repeat match goal with
  | H : context [if ?b then _ else _] |- _ => let E := fresh "E" in destruct b eqn:E
  | H : context [match inflight ?s with _ => _ end] |- _ => let E := fresh "E" in destruct (inflight s) eqn:E
  end.
Ltac fin := cbn in *; repeat match goal with H : (_ =? _) = true |- _ => apply Nat.eqb_eq in H | H : (_ && _)%bool = true |- _ => apply andb_true_iff in H; destruct H | H : negb _ = true |- _ => apply negb_true_iff in H end; intuition (try congruence; try discriminate; try lia).

Lemma inv_init k : inv k init.
Proof. split; [|constructor]. unfold ginv. destruct k as [? ?| | | |]; fin. Qed.

Lemma start_inv k ok s s' : inv k s -> start_step k ok s = Some s' -> inv k s'.
Proof.
  intros [G F] H. unfold start_step in H.
  assert (stops s' = stops s /\ (down s' = down s) /\ (dead s' = dead s) /\ (shut s = true -> shut s' = true) /\ (pub s = true -> pub s' = true) /\
    inflight s' = inflight s) as (Es & Ed & Edd & Esh & Ep & Ei).
  { destruct k as [[|] [|]| | | |]; destruct (pc s); split_ifs; try discriminate; injection H as <-; cbn; auto 10. }
  split.
  - destruct s as [p so pu dn de sh br n lo sts]. unfold ginv in *. cbn in *.
    destruct k as [[|] [|]| | | |]; destruct p; split_ifs; try discriminate; injection H as <-; fin.
  - rewrite Es. eapply Forall_impl; [|exact F]. intros t. unfold tok. rewrite ?Ed, ?Edd, ?Ei.
    destruct k as [? ?| | | |]; destruct t as [| | | | |[| |]]; auto.
    all: intros (A1 & A2 & A3); repeat split; auto.
    all: destruct s as [p so pu dn de sh br n lo sts]; unfold ginv in *; cbn in *; destruct p; split_ifs; try discriminate; injection H as <-; fin.
Qed.

Lemma tok_mono k s s' t : tok k s t -> (down s = true -> down s' = true) -> (dead s = true -> dead s' = true) -> (shut s = true -> shut s' = true) ->
  (pub s = true -> pub s' = true) -> (k = Http -> tok k s t -> t = Done Took -> inflight s' = 0) -> (is_quic k = true -> sock s = false -> sock s' = false) -> tok k s' t.
Proof.
  unfold tok. intros T A B C D E F. destruct k as [? ?| | | |]; destruct t as [| | | | |[| |]]; cbn in *; intuition auto.
Qed.
Lemma stop_inv k t t' s s' : inv k s -> In t (stops s) -> stop_step k t s = Some (t', s') -> ginv k s' /\ Forall (tok k s') (stops s') /\ stops s' = stops s /\ tok k s' t'.
Proof.
  intros [G F] Hin H. assert (T : tok k s t) by (rewrite Forall_forall in F; auto).
  assert (stops s' = stops s /\ (down s = true -> down s' = true) /\ (dead s = true -> dead s' = true) /\ (shut s = true -> shut s' = true) /\
    (pub s = true -> pub s' = true) /\ (inflight s = 0 -> inflight s' = 0) /\ (sock s = false -> sock s' = false)) as (Es & Ed & Edd & Esh & Ep & Ei & Eso).
  { unfold stop_step in H. destruct k as [[|] ?| | | |]; destruct t; cbn in H; split_ifs; try discriminate; injection H as <- <-; cbn; intuition congruence. }
  split; [|split; [|split]]; auto.
  - destruct s as [p so pu dn de sh br n lo sts]. unfold ginv, tok, stop_step, serving in *. cbn in *.
    destruct k as [[|] [|]| | | |]; destruct t as [| | | | |[| |]]; destruct p; split_ifs; try discriminate; try contradiction; injection H as <- <-; fin.
  - rewrite Es. eapply Forall_impl; [|exact F]. intros t0 T0. eapply tok_mono; eauto. intros -> T1 ->. cbn in T1. apply Ei, T1.
  - destruct s as [p so pu dn de sh br n lo sts]. unfold ginv, tok, stop_step, serving in *. cbn in *.
    destruct k as [[|] [|]| | | |]; destruct t as [| | | | |[| |]]; split_ifs; try discriminate; try contradiction; injection H as <- <-; fin.
Qed.
Lemma stops_with l s : stops (with_stops l s) = l. Proof. reflexivity. Qed.
Lemma ginv_with k l s : ginv k (with_stops l s) <-> ginv k s.
Proof. destruct s. unfold ginv. cbn. reflexivity. Qed.
Lemma tok_with k l s t : tok k (with_stops l s) t <-> tok k s t.
Proof. destruct s. reflexivity. Qed.
Lemma step_inv k a s s' : inv k s -> step k a s = Some s' -> inv k s'.
Proof.
  intros I H. destruct a as [ok| |i| |]; cbn in H.
  - eapply start_inv; eauto.
  - injection H as <-. destruct I as [G F]. split; [now rewrite ginv_with|]. rewrite stops_with. apply Forall_app. split.
    + eapply Forall_impl; [|exact F]. intros t. now rewrite tok_with.
    + repeat constructor. destruct k; exact I.
  - destruct (nth_error (stops s) i) as [t|] eqn:E; [|discriminate]. destruct (stop_step k t s) as [[t' s1]|] eqn:E1; [|discriminate]. injection H as <-.
    destruct (stop_inv _ _ _ _ _ I (nth_error_In _ _ E) E1) as (G & F & Es & T). split; [now rewrite ginv_with|]. rewrite stops_with.
    apply Forall_put; [|now rewrite tok_with]. eapply Forall_impl; [|exact F]. intros. now rewrite tok_with.
  - destruct (accepts k s) eqn:E; [|discriminate]. injection H as <-. destruct I as [G F]. split.
    + destruct s as [p so pu dn de sh br n lo sts]. unfold ginv, accepts, serving in *. cbn in *. destruct k as [? ?| | | |]; destruct p; fin.
    + cbn. eapply Forall_impl; [|exact F]. intros t T. eapply tok_mono; eauto. intros -> T1 ->. cbn in T1.
      destruct s as [p so pu dn de sh br n lo sts]. unfold ginv, accepts, serving in *. cbn in *. destruct p; fin.
  - destruct (inflight s) as [|n0] eqn:E; [discriminate|]. injection H as <-. destruct I as [G F]. split.
    + destruct s as [p so pu dn de sh br n lo sts]. unfold ginv in *. cbn in *. destruct k as [? ?| | | |]; destruct p; fin.
    + cbn. eapply Forall_impl; [|exact F]. intros t T. eapply tok_mono; eauto. intros -> T1 ->. cbn in T1. cbn. destruct T1. lia.
Qed.
Lemma run_inv k : forall ls s s', inv k s -> run k ls s = Some s' -> inv k s'.
Proof.
  induction ls as [|a ls IH]; intros s s' I H; cbn in H; [congruence|]. destruct (step k a s) as [s1|] eqn:E; [|discriminate]. eauto using step_inv.
Qed.
Definition reachable (k : kind) (s : st) : Prop := exists ls, run k ls init = Some s.
Lemma reach_inv k ls s : run k ls init = Some s -> inv k s.
Proof. apply run_inv, inv_init. Qed.
