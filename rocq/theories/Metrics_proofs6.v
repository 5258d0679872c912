(** Counters of DoQ connections. *)
From Coq Require Import Permutation.
From Verif Require Import Base Bytes Dns Net Cidr_model Cidr_spec Net_spec Metrics_model Metrics_spec Metrics_proofs Conn_spec.
From Verif Require Import Listener_model Listener_spec Listener_proofs.
Local Open Scope string_scope.
Local Open Scope nat_scope.

Section Conn.
Variable unpack : bytes -> option msg.
Variable pack : msg -> option bytes.
Variable rCode : N -> string.
Variable parseAddr : string -> option bytes.
Hypothesis PO : parse_ok parseAddr.
Variable id : string.
Variable nets : list string.
Variable l : list ipnet.
Hypothesis PL : parseCIDRList parseAddr nets = Some l.

Definition s_bumps (c : doqcall) : list bump := stream_bumps (qc_resolve c) unpack pack rCode (qc_client c) (qc_hs c) (qc_sent c) (qc_data c).
Definition c_bumps (c : doqconn) : list bump := connection_bumps (cn_resolve c) unpack pack rCode id l (cn_src c) (cn_tls c) (cn_streams c).

Lemma c_bumps_eq c : c_bumps c = if isAllowed l (cn_src c) then ("session", "") :: flat_map s_bumps (stream_calls id c) else [("drop", "")].
Proof.
  unfold c_bumps. rewrite q_connection. destruct (isAllowed l (cn_src c)); [|reflexivity]. f_equal. unfold stream_calls. f_equal. apply map_ext. intros [[hs sent] data]. reflexivity.
Qed.
Lemma s_none b c : fst b = "session" \/ fst b = "drop" -> times b (s_bumps c) = 0.
Proof.
  intros H. assert (G : forall x, In x (s_bumps c) -> fst x <> "session" /\ fst x <> "drop").
  { intros x. unfold s_bumps, stream_bumps, int, err, response. intros [<-|I]; [split; discriminate|].
    repeat match goal with
    | H : In _ (match ?d with _ => _ end) |- _ => destruct d
    | H : In _ (_ ++ _) |- _ => apply in_app_iff in H; destruct H
    | H : In _ (_ :: _) |- _ => destruct H as [<-|H]
    | H : In _ [] |- _ => destruct H
    end; split; discriminate. }
  unfold times. destruct (filter (bump_eqb b) (s_bumps c)) as [|x xs] eqn:E; [reflexivity|].
  assert (I : In x (filter (bump_eqb b) (s_bumps c))) by (rewrite E; left; reflexivity). apply filter_In in I. destruct I as [I X].
  destruct (G x I) as [G1 G2]. unfold bump_eqb in X. apply andb_prop in X. destruct X as [X _]. apply String.eqb_eq in X. destruct H; congruence.
Qed.
Lemma s_nones b cs : fst b = "session" \/ fst b = "drop" -> times b (flat_map s_bumps cs) = 0.
Proof. intros H. induction cs as [|c cs IH]; [reflexivity|]. cbn [flat_map]. rewrite times_app, IH, s_none by exact H. reflexivity. Qed.
Lemma connection_counts : forall conns : list (bool * doqconn),
  (forall b c, In (b, c) conns -> (cn_src c = [] \/ ip_ok (cn_src c)) /\ (b = true <-> allowed parseAddr nets (cn_src c))) ->
  forall log, Permutation log (flat_map (fun bc => c_bumps (snd bc)) conns) ->
  let admitted := map snd (filter fst conns) in
  times ("session", "") log = length admitted /\
  times ("drop", "") log + length admitted = length conns /\
  forall b, fst b <> "session" -> fst b <> "drop" -> times b log = times b (flat_map s_bumps (flat_map (stream_calls id) admitted)).
Proof.
  intros conns H log P. assert (X : forall b, times b log = times b (flat_map (fun bc => c_bumps (snd bc)) conns)) by (intros b; apply filter_len_perm, P).
  rewrite !X. cbv zeta. match goal with |- ?A /\ ?B /\ _ => enough (A /\ B /\ forall b, fst b <> "session" -> fst b <> "drop" ->
    times b (flat_map (fun bc => c_bumps (snd bc)) conns) = times b (flat_map s_bumps (flat_map (stream_calls id) (map snd (filter fst conns))))) as (G1 & G2 & G3) end.
  { split; [exact G1|]. split; [exact G2|]. intros b B1 B2. rewrite X. apply G3; assumption. }
  clear P X log. induction conns as [|[b c] conns IH]; [repeat split|].
  destruct IH as (I1 & I2 & I3); [intros b' c' I; apply (H b' c'); right; exact I|]. destruct (H b c (or_introl eq_refl)) as (S & A).
  pose proof (allowed_spec parseAddr PO nets l (cn_src c) PL S) as E. cbn [flat_map snd filter fst]. rewrite c_bumps_eq.
  destruct b.
  - destruct (isAllowed l (cn_src c)) eqn:Y; [|exfalso; assert (false = true) by (apply E, A; reflexivity); discriminate].
    cbn [map snd flat_map length]. repeat rewrite <- app_comm_cons. rewrite !times_cons, !times_app, I1, !s_nones by (cbn; auto). cbn [bump_eqb fst snd]. split; [reflexivity|].
    split; [cbn; lia|]. intros b B1 B2. rewrite times_cons, times_app, flat_map_app, times_app, I3 by assumption.
    replace (bump_eqb b ("session", "")) with false; [reflexivity|]. symmetry. unfold bump_eqb. cbn [fst snd]. destruct (String.eqb_spec (fst b) "session"); [contradiction|reflexivity].
  - destruct (isAllowed l (cn_src c)) eqn:Y; [exfalso; assert (false = true) by (apply A, E; reflexivity); discriminate|].
    rewrite !times_app, I1. split; [reflexivity|]. split; [cbn [length]; rewrite <- I2; reflexivity|]. intros b B1 B2. rewrite times_app, I3 by assumption.
    rewrite times_cons, times_nil. replace (bump_eqb b ("drop", "")) with false; [reflexivity|]. symmetry. unfold bump_eqb. cbn [fst snd]. destruct (String.eqb_spec (fst b) "drop"); [contradiction|reflexivity].
Qed.
End Conn.
