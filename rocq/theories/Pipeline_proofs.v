(** Ownership of requests: every request is in at most one place, and while it is there it is not
    done. *)
From Verif Require Import Base Bytes Dns Groups_model Pipeline_model.
Local Open Scope nat_scope.

Definition one (k j : nat) : nat := if Nat.eqb k j then 1 else 0.
Fixpoint cnt (l : list nat) (j : nat) : nat := match l with [] => 0 | k :: l => one k j + cnt l j end.
Definition cnt_main (s : pipe) (j : nat) : nat := match main s with MGot k => one k j | _ => 0 end.
Definition cnt_writer (s : pipe) (j : nat) : nat := match writer s with WGot k => one k j | WOwn k _ => one k j | _ => 0 end.
Definition cnt_reader (s : pipe) (j : nat) : nat := match reader s with RMatch k _ => one k j | _ => 0 end.
Definition places (s : pipe) (j : nat) : nat :=
  cnt_main s j + cnt (requeue s) j + cnt_writer s j + cnt (map snd (inflight s)) j + cnt_reader s j.

Definition open (r : request) : nat := match r_done r with None => 1 | Some _ => 0 end.
(** The request j in state s *)
Definition POk (s : pipe) (j : nat) : Prop :=
  match callers s j with
  | CNone => reqs s j = None /\ places s j = 0
  | COffer => exists r, reqs s j = Some r /\ open r = 1 /\ places s j = 0
  | CWait => exists r, reqs s j = Some r /\ places s j = open r
  | CExpired | CRet _ => exists r, reqs s j = Some r /\ places s j <= open r
  end.
Record Inv (s : pipe) : Prop := {
  i_req : forall j, POk s j;
  i_ids : NoDup (map fst (inflight s));
  i_writer : forall k id, (writer s = WSend k id \/ exists e, writer s = WFail k id e) -> forall k', In (id, k') (inflight s) -> k' = k;
  i_idle : (main s = MIdle \/ exists k, main s = MGot k) -> inflight s = [] /\ writer s = WNone /\ reader s = RNone;
  i_drain : main s = MDrain -> writer s = WExit /\ reader s = RExit;
  i_crash : crash s = false
}.

Lemma one_refl k : one k k = 1.
Proof. unfold one. rewrite Nat.eqb_refl. reflexivity. Qed.
Lemma one_neq k j : k <> j -> one k j = 0.
Proof. intros H. unfold one. apply Nat.eqb_neq in H. rewrite H. reflexivity. Qed.
Lemma upd_eq {A} (f : nat -> A) k v : upd f k v k = v.
Proof. unfold upd. rewrite Nat.eqb_refl. reflexivity. Qed.
Lemma upd_neq {A} (f : nat -> A) k v j : k <> j -> upd f k v j = f j.
Proof. intros H. unfold upd. destruct (Nat.eqb_spec j k); [congruence|reflexivity]. Qed.
Lemma cnt_app l l' j : cnt (l ++ l') j = cnt l j + cnt l' j.
Proof. induction l as [|x l IH]; [reflexivity|]. cbn [app cnt]. rewrite IH. lia. Qed.
Lemma cnt_in l j : In j l -> 1 <= cnt l j.
Proof. induction l as [|x l IH]; intros []; cbn [cnt]; [subst; rewrite one_refl; lia|specialize (IH H); lia]. Qed.
Lemma cnt_remove k l j : In k l -> cnt l j = one k j + cnt (remove_one k l) j.
Proof.
  induction l as [|x l IH]; intros H; [destruct H|]. cbn [remove_one cnt]. destruct (Nat.eqb_spec k x) as [->|N]; [reflexivity|].
  destruct H as [H|H]; [congruence|]. cbn [cnt]. rewrite (IH H). lia.
Qed.
Lemma cnt_nodup l : (forall j, cnt l j <= 1) -> NoDup l.
Proof.
  induction l as [|x l IH]; intros H; constructor.
  - intros I. specialize (H x). cbn [cnt] in H. rewrite one_refl in H. apply cnt_in in I. lia.
  - apply IH. intros j. specialize (H j). cbn [cnt] in H. lia.
Qed.

Lemma lookup_none id l : lookup id l = None <-> ~ In id (map fst l).
Proof.
  unfold lookup. induction l as [|[i k] l IH]; cbn [find map fst]; [split; [intros _ []|reflexivity]|]. destruct (N.eqb_spec i id) as [->|N]; cbn [option_map].
  - split; [discriminate|]. intros H. destruct H. left. reflexivity.
  - rewrite IH. split; [intros H [E|E]; contradiction|intros H E; apply H; right; exact E].
Qed.
Lemma lookup_some id l k : lookup id l = Some k -> In (id, k) l.
Proof.
  unfold lookup. induction l as [|[i x] l IH]; cbn [find]; [discriminate|]. cbn [fst]. destruct (N.eqb_spec i id) as [->|N]; cbn [option_map snd].
  - intros [= <-]. left. reflexivity.
  - intros H. right. apply IH, H.
Qed.
Lemma remove_none id l : ~ In id (map fst l) -> remove_id id l = l.
Proof.
  unfold remove_id. induction l as [|[i x] l IH]; intros H; [reflexivity|]. cbn [filter fst]. destruct (N.eqb_spec i id) as [->|N]; [destruct H; left; reflexivity|].
  cbn [negb]. rewrite IH; [reflexivity|]. intros G. apply H. right. exact G.
Qed.
Lemma cnt_remove_id id l k j : lookup id l = Some k -> NoDup (map fst l) -> cnt (map snd l) j = one k j + cnt (map snd (remove_id id l)) j.
Proof.
  unfold lookup. induction l as [|[i x] l IH]; cbn [find]; [discriminate|]. cbn [fst map]. intros H ND. inversion ND as [|? ? N1 N2]; subst.
  unfold remove_id. cbn [filter fst]. destruct (N.eqb_spec i id) as [->|N]; cbn [option_map snd negb] in *.
  - injection H as <-. fold (remove_id id l). rewrite (remove_none _ _ N1). reflexivity.
  - fold (remove_id id l). cbn [map snd cnt]. rewrite (IH H N2). lia.
Qed.
Lemma remove_id_in id l p : In p (remove_id id l) <-> In p l /\ fst p <> id.
Proof. unfold remove_id. rewrite filter_In. destruct (N.eqb_spec (fst p) id); cbn [negb]; intuition congruence. Qed.
Lemma remove_id_nodup id l : NoDup (map fst l) -> NoDup (map fst (remove_id id l)).
Proof.
  induction l as [|[i x] l IH]; intros H; [constructor|]. unfold remove_id. cbn [filter fst map] in *. inversion H as [|? ? N1 N2]; subst. destruct (N.eqb i id); cbn [negb].
  - apply IH, N2.
  - fold (remove_id id l). cbn [map fst]. constructor; [|apply IH, N2]. intros I. apply N1. apply in_map_iff in I. destruct I as (p & E & I). apply remove_id_in in I.
    apply in_map_iff. exists p. tauto.
Qed.

(** *** Changes of requests *)
Ltac cases_caller s j := unfold POk in *; destruct (callers s j) eqn:?Ec.

Lemma POk_le s j : POk s j -> places s j <= 1.
Proof. unfold POk, open. destruct (callers s j) as [| | | |res]; [intros [_ ->]; lia|intros (r & _ & _ & ->); lia| | |]; intros (r & _ & H); destruct (r_done r); lia. Qed.
Lemma POk_held s j : POk s j -> 1 <= places s j -> exists r, reqs s j = Some r /\ r_done r = None /\ callers s j <> CNone /\ callers s j <> COffer /\ places s j = 1.
Proof.
  unfold POk, open. destruct (callers s j) as [| | | |res]; [intros [_ ->]; lia|intros (r & _ & _ & ->); lia| | |]; intros (r & E & H) L; exists r; destruct (r_done r); try lia;
  (split; [exact E|split; [reflexivity|split; [discriminate|split; [discriminate|lia]]]]).
Qed.

Lemma POk_move s s' : (forall j, POk s j) -> (forall j, places s' j = places s j) -> callers s' = callers s ->
  (forall j r, reqs s j = Some r -> exists r', reqs s' j = Some r' /\ open r' = open r) -> (forall j, reqs s j = None -> reqs s' j = None) -> forall j, POk s' j.
Proof.
  intros H P C R N j. specialize (H j). unfold POk in *. rewrite C, P. destruct (callers s j).
  - destruct H as [H1 H2]. split; [apply N, H1|exact H2].
  - destruct H as (r & H1 & H2 & H3). destruct (R _ _ H1) as (r' & R1 & R2). exists r'. rewrite R2. auto.
  - destruct H as (r & H1 & H2). destruct (R _ _ H1) as (r' & R1 & R2). exists r'. rewrite R2. auto.
  - destruct H as (r & H1 & H2). destruct (R _ _ H1) as (r' & R1 & R2). exists r'. rewrite R2. auto.
  - destruct H as (r0 & H1 & H2). destruct (R _ _ H1) as (r' & R1 & R2). exists r'. rewrite R2. auto.
Qed.
Lemma POk_take s s' k : (forall j, POk s j) -> callers s k = COffer -> (forall j, places s' j = places s j + one k j) -> callers s' = upd (callers s) k CWait ->
  reqs s' = reqs s -> forall j, POk s' j.
Proof.
  intros H O P C R j. specialize (H j). unfold POk in *. rewrite C, P, R. destruct (Nat.eq_dec k j) as [<-|N].
  - rewrite upd_eq, one_refl, O in *. destruct H as (r & H1 & H2 & H3). exists r. split; [exact H1|lia].
  - rewrite upd_neq, one_neq, Nat.add_0_r by exact N. exact H.
Qed.
Lemma mark_reqs s k res r : reqs s k = Some r -> r_done r = None -> exists res', markDone k res s = set_reqs (upd (reqs s) k (Some (Request (r_q r) (r_id r) (Some res')))) s /\
  match res with Ans a => res' = Ans (set_id (m_id (r_q r)) a) | x => res' = x end.
Proof. intros E D. unfold markDone. rewrite E, D. eexists. split; [reflexivity|]. destruct res; reflexivity. Qed.
Lemma POk_done s s' k : (forall j, POk s j) -> places s k >= 1 -> (forall j, places s' j + one k j = places s j) -> callers s' = callers s ->
  (exists r res, reqs s k = Some r /\ reqs s' = upd (reqs s) k (Some (Request (r_q r) (r_id r) (Some res)))) -> forall j, POk s' j.
Proof.
  intros H L P C (r & res & E & R) j. specialize (P j). pose proof (H j) as Hj. destruct (Nat.eq_dec k j) as [<-|N].
  - destruct (POk_held s k Hj L) as (r0 & E0 & D & C1 & C2 & P1). rewrite one_refl in P. unfold POk in *. rewrite C, R, upd_eq.
    destruct (callers s k); try congruence; eexists; (split; [reflexivity|cbn; lia]).
  - rewrite one_neq in P by exact N. unfold POk in *. rewrite C, R, upd_neq by exact N. replace (places s' j) with (places s j) by lia. exact Hj.
Qed.

(** *** The steps *)
Lemma receive_spec s k s' : receive k s = Some s' -> 
  (callers s k = COffer /\ s' = set_callers (upd (callers s) k CWait) s) \/
  (callers s k <> COffer /\ In k (requeue s) /\ s' = set_requeue (remove_one k (requeue s)) s).
Proof.
  unfold receive. assert (X : (if existsb (Nat.eqb k) (requeue s) then Some (set_requeue (remove_one k (requeue s)) s) else None) = Some s' -> In k (requeue s) /\ s' = set_requeue (remove_one k (requeue s)) s).
  { destruct (existsb (Nat.eqb k) (requeue s)) eqn:X; [|discriminate]. intros [= <-]. apply existsb_exists in X. destruct X as (y & I & Y). apply Nat.eqb_eq in Y. subst. auto. }
  destruct (callers s k); intros H; first [left; injection H as <-; split; reflexivity|right; split; [discriminate|apply X, H]].
Qed.

Ltac fields := cbn [reqs callers main requeue writer reader stop inflight conn wires crash set_reqs set_callers set_main set_requeue set_writer set_reader set_stop set_inflight set_conn set_wires set_crash] in *.
Ltac unplace := unfold places, cnt_main, cnt_writer, cnt_reader in *; fields.

Lemma fold_mark ks : forall s, (forall j, cnt ks j <= 1) -> (forall j, In j ks -> exists r, reqs s j = Some r /\ r_done r = None) ->
  let s' := fold_left (fun s k => markDone k (Err "closed") s) ks s in
  s' = set_reqs (reqs s') s /\
  forall j, (In j ks -> exists r, reqs s j = Some r /\ reqs s' j = Some (Request (r_q r) (r_id r) (Some (Err "closed")))) /\ (~ In j ks -> reqs s' j = reqs s j).
Proof.
  induction ks as [|k ks IH]; intros s C R; cbn [fold_left].
  - cbv zeta. split; [destruct s; reflexivity|]. intros j. split; [intros []|reflexivity].
  - destruct (R k (or_introl eq_refl)) as (r & E & D). destruct (mark_reqs s k (Err "closed") r E D) as (res' & -> & ->).
    set (s1 := set_reqs _ s). assert (K : ~ In k ks) by (intros I; specialize (C k); cbn [cnt] in C; rewrite one_refl in C; apply cnt_in in I; lia).
    assert (R1 : forall j, In j ks -> exists r, reqs s1 j = Some r /\ r_done r = None).
    { intros j I. subst s1. fields. rewrite upd_neq by (intros ->; contradiction). apply R. right. exact I. }
    assert (C1 : forall j, cnt ks j <= 1) by (intros j; specialize (C j); cbn [cnt] in C; lia).
    destruct (IH s1 C1 R1) as [I1 I2]. cbv zeta. set (s' := fold_left _ ks s1) in *. split; [rewrite I1; subst s1; fields; reflexivity|].
    intros j. destruct (I2 j) as [I3 I4]. split.
    + intros [<-|I].
      * exists r. split; [exact E|]. rewrite (I4 K). subst s1. fields. apply upd_eq.
      * destruct (I3 I) as (r1 & E1 & E2). exists r1. split; [|exact E2]. subst s1. fields. rewrite upd_neq in E1 by (intros ->; contradiction). exact E1.
    + intros N. rewrite I4 by (intros I; apply N; right; exact I). subst s1. fields. apply upd_neq. intros ->. apply N. left. reflexivity.
Qed.

Lemma inv_init : Inv pipe_init.
Proof.
  constructor; cbn; try discriminate; try reflexivity; try (intros; tauto).
  constructor.
Qed.

Ltac stay H := destruct H as [Hr Hi Hw Hm Hd Hc]; constructor; fields; try assumption; try discriminate.
Ltac idle_no := let H := fresh in intros H; exfalso; destruct H as [H|[? H]]; congruence.

Lemma running s : Inv s -> writer s <> WNone \/ reader s <> RNone -> main s = MRunning \/ main s = MDrain.
Proof.
  intros H W. destruct (main s) eqn:E; [| |left; reflexivity|right; reflexivity]; exfalso;
  (destruct (i_idle s H) as (_ & A & B); [rewrite E; eauto|]); destruct W; contradiction.
Qed.

Theorem inv_step s e s' : Inv s -> pipe_step s e = Some s' -> Inv s'.
Proof.
  intros H. pose proof (running s H) as RUN. destruct e as [k q|k|k| |e|k|id| |e| | | |a| | | | | |k|k|k]; cbn [pipe_step].
  - (* call *)
    destruct (callers s k) eqn:C; try discriminate. intros [= <-]. stay H. intros j. specialize (Hr j). unfold POk in *. unplace. destruct (Nat.eq_dec k j) as [<-|N].
    + rewrite !upd_eq. rewrite C in Hr. eexists. split; [reflexivity|]. split; [reflexivity|apply Hr].
    + rewrite !upd_neq by exact N. exact Hr.
  - destruct (callers s k) eqn:C; try discriminate. intros [= <-]. stay H. intros j. specialize (Hr j). unfold POk in *. unplace. destruct (Nat.eq_dec k j) as [<-|N].
    + rewrite upd_eq. rewrite C in Hr. destruct Hr as (r & R1 & R2 & R3). exists r. split; [exact R1|lia].
    + rewrite !upd_neq by exact N. exact Hr.
  - (* main takes *)
    destruct (main s) eqn:M; try discriminate. destruct (receive k s) as [s1|] eqn:R; [|discriminate]. intros [= <-].
    destruct (i_idle s H (or_introl M)) as (Fl & Wr & Rd). apply receive_spec in R. destruct R as [[C ->]|(C & I & ->)]; stay H.
    + apply (POk_take s _ k Hr C); try reflexivity. intros j. unplace. rewrite M. lia.
    + intros _. auto.
    + apply (POk_move s); try reflexivity; try assumption; [|intros j r E; exists r; auto|auto]. intros j. unplace. rewrite M, (cnt_remove k (requeue s) j I). lia.
    + intros _. auto.
  - (* dial *)
    destruct (main s) as [|k| |] eqn:M; try discriminate. intros [= <-]. destruct (i_idle s H (or_intror (ex_intro _ k M))) as (Fl & Wr & Rd). stay H.
    + apply (POk_move s); try reflexivity; try assumption; [|intros j r E; exists r; auto|auto]. intros j. unplace. rewrite M, Wr, Rd. cbn [cnt]. lia.
    + intros k' id [E|[e E]]; discriminate E.
    + intros [E|[k' E]]; discriminate E.
  - destruct (main s) as [|k| |] eqn:M; try discriminate. intros [= <-]. destruct (i_idle s H (or_intror (ex_intro _ k M))) as (Fl & Wr & Rd).
    assert (P : places s k >= 1) by (unplace; rewrite M, one_refl; lia). destruct (POk_held s k (i_req s H k) P) as (r & E & D & _).
    destruct (mark_reqs s k (Err e) r E D) as (res' & -> & _). stay H.
    + apply (POk_done s _ k Hr P); try reflexivity; [|exists r, res'; split; [exact E|reflexivity]]. intros j. unplace. rewrite M. lia.
    + intros _. auto.
  - (* writer takes *)
    destruct (writer s) eqn:W; try discriminate. destruct (receive k s) as [s1|] eqn:R; [|discriminate]. intros [= <-].
    destruct RUN as [M|M]; [left; discriminate| |destruct (i_drain s H M) as [X _]; congruence].
    apply receive_spec in R. destruct R as [[C ->]|(C & I & ->)]; stay H.
    + apply (POk_take s _ k Hr C); try reflexivity. intros j. unplace. rewrite W. lia.
    + intros k' id [E|[e E]]; discriminate E.
    + rewrite M. intros [E|[k' E]]; discriminate E.
    + congruence.
    + apply (POk_move s); try reflexivity; try assumption; [|intros j r E; exists r; auto|auto]. intros j. unplace. rewrite W, (cnt_remove k (requeue s) j I). lia.
    + intros k' id [E|[e E]]; discriminate E.
    + rewrite M. intros [E|[k' E]]; discriminate E.
    + congruence.
  - (* add *)
    destruct (writer s) as [| |k| | | |] eqn:W; try discriminate.
    destruct RUN as [M|M]; [left; discriminate| |destruct (i_drain s H M) as [X _]; congruence].
    assert (P : places s k >= 1) by (unplace; rewrite W, one_refl; lia). destruct (POk_held s k (i_req s H k) P) as (r & E & D & C1 & C2 & P1).
    destruct (Nat.leb _ _).
    + intros [= <-]. destruct (mark_reqs s k (Err "full") r E D) as (res' & -> & _). stay H.
      * apply (POk_done s _ k Hr P); try reflexivity; [|exists r, res'; split; [exact E|reflexivity]]. intros j. unplace. rewrite W. lia.
      * intros k' id' [X|[e X]]; discriminate X.
      * rewrite M. intros [X|[k' X]]; discriminate X.
      * congruence.
    + destruct (lookup id (inflight s)) eqn:L; [discriminate|]. rewrite E. destruct (N.ltb id 65536); [|discriminate]. intros [= <-]. apply lookup_none in L. stay H.
      * apply (POk_move s); try reflexivity; try assumption.
        -- intros j. unplace. rewrite W. cbn [map snd cnt]. lia.
        -- intros j r' E'. fields. destruct (Nat.eq_dec k j) as [<-|N]; [rewrite upd_eq; eexists; split; [reflexivity|]; rewrite E in E'; injection E' as <-; reflexivity|rewrite upd_neq by exact N; exists r'; auto].
        -- intros j E'. fields. destruct (Nat.eq_dec k j) as [<-|N]; [congruence|rewrite upd_neq by exact N; exact E'].
      * cbn [map fst]. constructor; assumption.
      * intros k' id' X k'' [I|I].
        -- injection I as <- <-. destruct X as [X|[e X]]; congruence.
        -- destruct X as [X|[e X]]; [|discriminate X]. injection X as <- <-. destruct L. apply in_map_iff. exists (id, k''). auto.
      * rewrite M. intros [X|[k' X]]; discriminate X.
      * congruence.
  - destruct (writer s) as [| | |k id| | |] eqn:W; try discriminate. intros [= <-]. destruct RUN as [M|M]; [left; discriminate| |destruct (i_drain s H M) as [X _]; congruence]. stay H.
    + apply (POk_move s); try reflexivity; try assumption; [|intros j r E; exists r; auto|auto]. intros j. unplace. rewrite W. lia.
    + intros k' id' [X|[e X]]; discriminate X.
    + rewrite M. intros [X|[k' X]]; discriminate X.
    + congruence.
  - destruct (writer s) as [| | |k id| | |] eqn:W; try discriminate. intros [= <-]. destruct RUN as [M|M]; [left; discriminate| |destruct (i_drain s H M) as [X _]; congruence]. stay H.
    + apply (POk_move s); try reflexivity; try assumption; [|intros j r E; exists r; auto|auto]. intros j. unplace. rewrite W. lia.
    + intros k' id' [X|[e' X]]; [discriminate X|]. injection X as <- <- <-. apply (Hw k id). left. exact W.
    + rewrite M. intros [X|[k' X]]; discriminate X.
    + congruence.
  - (* get back *)
    destruct (writer s) as [| | | |k id e| |] eqn:W; try discriminate. destruct RUN as [M|M]; [left; discriminate| |destruct (i_drain s H M) as [X _]; congruence].
    destruct (lookup id (inflight s)) as [k'|] eqn:L; intros [= <-].
    + assert (k' = k) as -> by (apply (i_writer s H k id); [right; exists e; exact W|apply lookup_some, L]). stay H.
      * apply (POk_move s); try reflexivity; try assumption; [|intros j r E; exists r; auto|auto]. intros j. unplace. rewrite W, (cnt_remove_id id (inflight s) k j L Hi). lia.
      * apply remove_id_nodup, Hi.
      * intros k' id' [X|[e' X]]; discriminate X.
      * rewrite M. intros [X|[k' X]]; discriminate X.
      * congruence.
    + stay H.
      * apply (POk_move s); try reflexivity; try assumption; [|intros j r E; exists r; auto|auto]. intros j. unplace. rewrite W. lia.
      * intros k' id' [X|[e' X]]; discriminate X.
      * rewrite M. intros [X|[k' X]]; discriminate X.
      * congruence.
  - (* fail *)
    destruct (writer s) as [| | | | |k e|] eqn:W; try discriminate. intros [= <-]. destruct RUN as [M|M]; [left; discriminate| |destruct (i_drain s H M) as [X _]; congruence].
    assert (P : places s k >= 1) by (unplace; rewrite W, one_refl; lia). destruct (POk_held s k (i_req s H k) P) as (r & E & D & _).
    destruct (mark_reqs s k (Err e) r E D) as (res' & -> & _). stay H.
    + apply (POk_done s _ k Hr P); try reflexivity; [|exists r, res'; split; [exact E|reflexivity]]. intros j. unplace. rewrite W. lia.
    + intros k' id' [X|[e' X]]; discriminate X.
    + rewrite M. intros [X|[k' X]]; discriminate X.
    + congruence.
  - destruct (writer s) eqn:W; try discriminate. destruct (stop s); [|discriminate]. intros [= <-]. destruct RUN as [M|M]; [left; discriminate| |destruct (i_drain s H M) as [X _]; congruence]. stay H.
    + apply (POk_move s); try reflexivity; try assumption; [|intros j r E; exists r; auto|auto]. intros j. unplace. rewrite W. lia.
    + intros k' id' [X|[e' X]]; discriminate X.
    + rewrite M. intros [X|[k' X]]; discriminate X.
    + congruence.
  - (* read *)
    destruct (reader s) eqn:R; try discriminate. intros [= <-]. destruct RUN as [M|M]; [right; discriminate| |destruct (i_drain s H M) as [_ X]; congruence]. stay H.
    + apply (POk_move s); try reflexivity; try assumption; [|intros j r E; exists r; auto|auto]. intros j. unplace. rewrite R. lia.
    + rewrite M. intros [X|[k' X]]; discriminate X.
    + congruence.
  - destruct (reader s) eqn:R; try discriminate. intros [= <-]. destruct RUN as [M|M]; [right; discriminate| |destruct (i_drain s H M) as [_ X]; congruence]. stay H.
    + apply (POk_move s); try reflexivity; try assumption; [|intros j r E; exists r; auto|auto]. intros j. unplace. rewrite R. lia.
    + rewrite M. intros [X|[k' X]]; discriminate X.
    + congruence.
  - (* get *)
    destruct (reader s) as [| |a| |] eqn:R; try discriminate. destruct RUN as [M|M]; [right; discriminate| |destruct (i_drain s H M) as [_ X]; congruence].
    destruct (lookup (m_id a) (inflight s)) as [k|] eqn:L; intros [= <-]; stay H.
    + apply (POk_move s); try reflexivity; try assumption; [|intros j r E; exists r; auto|auto]. intros j. unplace. rewrite R, (cnt_remove_id (m_id a) (inflight s) k j L Hi). lia.
    + apply remove_id_nodup, Hi.
    + intros k' id' X k'' I. apply remove_id_in in I. apply (Hw k' id' X k''). tauto.
    + rewrite M. intros [X|[k' X]]; discriminate X.
    + congruence.
    + apply (POk_move s); try reflexivity; try assumption; [|intros j r E; exists r; auto|auto]. intros j. unplace. rewrite R. lia.
    + rewrite M. intros [X|[k' X]]; discriminate X.
    + congruence.
  - (* complete *)
    destruct (reader s) as [| | |k a|] eqn:R; try discriminate. intros [= <-]. destruct RUN as [M|M]; [right; discriminate| |destruct (i_drain s H M) as [_ X]; congruence].
    assert (P : places s k >= 1) by (unplace; rewrite R, one_refl; lia). destruct (POk_held s k (i_req s H k) P) as (r & E & D & _).
    destruct (mark_reqs s k (Ans a) r E D) as (res' & -> & _). stay H.
    + apply (POk_done s _ k Hr P); try reflexivity; [|exists r, res'; split; [exact E|reflexivity]]. intros j. unplace. rewrite R. lia.
    + rewrite M. intros [X|[k' X]]; discriminate X.
    + congruence.
  - destruct (main s) eqn:M; try discriminate. destruct (writer s) eqn:W; try discriminate. destruct (reader s) eqn:R; try discriminate. intros [= <-]. stay H.
    + apply (POk_move s); try reflexivity; try assumption; [|intros j r E; exists r; auto|auto]. intros j. unplace. rewrite M. lia.
    + intros [X|[k' X]]; discriminate X.
    + auto.
  - (* drain *)
    destruct (main s) eqn:M; try discriminate. intros [= <-]. destruct (i_drain s H M) as [W R].
    assert (C : forall j, cnt (map snd (inflight s)) j <= 1) by (intros j; pose proof (POk_le s j (i_req s H j)); unplace; lia).
    assert (O : forall j, In j (map snd (inflight s)) -> exists r, reqs s j = Some r /\ r_done r = None).
    { intros j I. apply cnt_in in I. destruct (POk_held s j (i_req s H j)) as (r & E & D & _); [unplace; lia|]. exists r. auto. }
    destruct (fold_mark _ s C O) as [F1 F2]. cbv zeta in *. set (s1 := fold_left _ _ s) in *. rewrite F1. stay H.
    + intros j. specialize (Hr j). destruct (F2 j) as [G1 G2]. destruct (in_dec Nat.eq_dec j (map snd (inflight s))) as [I|I].
      * destruct (G1 I) as (r & E & E'). assert (P : 1 <= places s j) by (unplace; pose proof (cnt_in _ _ I); lia).
        destruct (POk_held s j Hr P) as (r0 & _ & _ & C1 & C2 & P1).
        assert (Z : cnt_main s j + cnt (requeue s) j + cnt_writer s j + cnt_reader s j = 0) by (unplace; pose proof (cnt_in _ _ I); lia).
        unfold POk. unplace. rewrite E'. rewrite M, W, R in *.
        destruct (callers s j); try congruence; eexists; (split; [reflexivity|cbn [map cnt open r_done]; lia]).
      * unfold POk in *. unplace. rewrite (G2 I). assert (Z : cnt (map snd (inflight s)) j = 0).
        { destruct (cnt (map snd (inflight s)) j) eqn:Z; [reflexivity|]. exfalso. apply I. clear -Z. induction (map snd (inflight s)) as [|x l IH]; [discriminate Z|].
          cbn [cnt] in Z. unfold one in Z. destruct (Nat.eqb_spec x j) as [->|]; [left; reflexivity|right; apply IH; exact Z]. }
        rewrite Z, M, W, R in Hr. exact Hr.
    + constructor.
    + intros k' id' [X|[e' X]]; discriminate X.
    + auto.
  - (* done *)
    destruct (callers s k) eqn:C; try discriminate. destruct (reqs s k) as [r|] eqn:E; [|discriminate]. destruct (r_done r) eqn:D; [|discriminate]. intros [= <-]. stay H.
    intros j. specialize (Hr j). unfold POk in *. unplace. destruct (Nat.eq_dec k j) as [<-|N]; [|rewrite upd_neq by exact N; exact Hr].
    rewrite upd_eq. rewrite C in Hr. destruct Hr as (r' & R1 & R2). exists r'. split; [exact R1|lia].
  - destruct (callers s k) eqn:C; try discriminate. intros [= <-]. stay H.
    intros j. specialize (Hr j). unfold POk in *. unplace. destruct (Nat.eq_dec k j) as [<-|N]; [|rewrite upd_neq by exact N; exact Hr].
    rewrite upd_eq. rewrite C in Hr. destruct Hr as (r' & R1 & R2). exists r'. split; [exact R1|lia].
  - (* delete *)
    destruct (callers s k) eqn:C; try discriminate. destruct (reqs s k) as [r|] eqn:E; [|discriminate].
    assert (G : forall s1 : pipe, (forall j, places s1 j <= places s j) -> (forall j, j <> k -> places s1 j = places s j) -> callers s1 = callers s -> reqs s1 = reqs s ->
      forall j, POk (set_callers (upd (callers s1) k (CRet (Err "timeout"))) s1) j).
    { intros s1 P1 P2 C1 R1 j. pose proof (i_req s H j) as Hr. unfold POk in *. fields. rewrite C1, R1. change (places (set_callers _ s1) j) with (places s1 j).
      destruct (Nat.eq_dec k j) as [<-|N].
      - rewrite upd_eq. rewrite C in Hr. destruct Hr as (r' & X1 & X2). exists r'. split; [exact X1|specialize (P1 k); lia].
      - rewrite upd_neq by exact N. rewrite (P2 j) by congruence. exact Hr. }
    intros [= <-].
    destruct (lookup (r_id r) (inflight s)) as [k'|] eqn:L; [destruct (Nat.eqb_spec k' k) as [->|N]|].
    + assert (Y : forall j, POk (set_callers (upd (callers (set_inflight (remove_id (r_id r) (inflight s)) s)) k (CRet (Err "timeout"))) (set_inflight (remove_id (r_id r) (inflight s)) s)) j).
      { apply G; try reflexivity; intros j; try intros Nj; unplace; rewrite (cnt_remove_id (r_id r) (inflight s) k j L (i_ids s H)); [lia|rewrite one_neq by congruence; lia]. }
      stay H.
      * apply remove_id_nodup, Hi.
      * intros k1 id' X k'' I. apply remove_id_in in I. apply (Hw k1 id' X k''). tauto.
      * intros X. destruct (Hm X) as (A & B & D). rewrite A. auto.
    + assert (Y : forall j, POk (set_callers (upd (callers s) k (CRet (Err "timeout"))) s) j) by (apply G; intros; reflexivity || lia). stay H.
    + assert (Y : forall j, POk (set_callers (upd (callers s) k (CRet (Err "timeout"))) s) j) by (apply G; intros; reflexivity || lia). stay H.
Qed.

Lemma exec_app l1 : forall s l2, pipe_exec s (l1 ++ l2) = match pipe_exec s l1 with None => None | Some s => pipe_exec s l2 end.
Proof. induction l1 as [|e l1 IH]; intros s l2; [reflexivity|]. cbn [app pipe_exec]. destruct (pipe_step s e); [apply IH|reflexivity]. Qed.
Theorem inv_exec l s : pipe_exec pipe_init l = Some s -> Inv s.
Proof.
  revert s. induction l as [|e l IH] using rev_ind; intros s H; [injection H as <-; exact inv_init|].
  rewrite exec_app in H. destruct (pipe_exec pipe_init l) as [s1|]; [|discriminate]. cbn [pipe_exec] in H. destruct (pipe_step s1 e) as [s2|] eqn:E; [|discriminate].
  injection H as <-. exact (inv_step s1 e s2 (IH s1 eq_refl) E).
Qed.
