(** The rate limiter over histories. *)
From Verif Require Import Base Bytes Net Cidr_spec Net_spec Modifiers_model RateLimit_model RateLimit_spec RateLimit_proofs.
From Coq Require Import ZifyBool ZifyNat ZifyN.
Local Open Scope nat_scope.

Section Run.
Variable ipString : bytes -> string.
Variable o : rl_opts.
Variable limit : bool.

Notation wid := (rl_window_id o).
Notation key := (rl_key ipString o).
(** queries of the history in window W with key k *)
Definition hits (W : Z) (k : string) (h : list (Z * bytes)) : nat :=
  length (filter (fun e => Z.eqb (wid (fst e)) W && String.eqb (key (snd e)) k) h).

Lemma hits_app W k a b : hits W k (a ++ b) = hits W k a + hits W k b.
Proof. unfold hits. rewrite filter_app, app_length. reflexivity. Qed.
Lemma hits_one W k t x : hits W k [(t, x)] = if Z.eqb (wid t) W && String.eqb (key x) k then 1 else 0.
Proof. unfold hits. cbn [filter fst snd]. destruct (_ && _); reflexivity. Qed.
Lemma hits_le W k h : hits W k h <= length h.
Proof. unfold hits. induction h as [|e h IH]; cbn [filter length]; [lia|]. destruct (_ && _); cbn [length]; lia. Qed.
Lemma hits_zero W k h : (forall e, In e h -> (wid (fst e) < W)%Z) -> hits W k h = 0.
Proof.
  intros H. unfold hits. induction h as [|e h IH]; [reflexivity|]. cbn [filter].
  assert (L := H e (or_introl eq_refl)). replace (wid (fst e) =? W)%Z with false by lia. cbn [andb].
  apply IH. intros y Hy. apply H. right. exact Hy.
Qed.

(** The state after a history *)
Definition inv (pre : list (Z * bytes)) (s : rl_state) : Prop :=
  (forall e, In e pre -> (wid (fst e) <= rl_cur s)%Z) /\
  match rl_counters s with
  | None => rl_cur s = 0%Z /\ pre = []
  | Some c => (exists e, In e pre /\ wid (fst e) = rl_cur s) /\ forall k, c k = N.of_nat (hits (rl_cur s) k pre)
  end.

Lemma inv_init : inv [] rl_init.
Proof. split; [intros e []|split; reflexivity]. Qed.

Lemma step pre s t x : inv pre s -> (0 < wid t)%Z -> (forall e, In e pre -> (wid (fst e) <= wid t)%Z) ->
  (N.of_nat (length pre) + 1 < 2 ^ 64)%N ->
  exists s', rl_resolve ipString o limit x t s = (s', if (rl_requests o <=? N.of_nat (hits (wid t) (key x) pre))%N then if limit then RlLimit else RlDrop else RlForward) /\
    inv (pre ++ [(t, x)]) s'.
Proof.
  intros [Hle Hc] Hw Hord Hlen. unfold rl_resolve, rl_count. cbv zeta.
  set (s1 := if (wid t =? rl_cur s)%Z then s else Rl (wid t) (Some (fun _ => 0%N))).
  assert (H1 : exists c, s1 = Rl (wid t) (Some c) /\ forall k, c k = N.of_nat (hits (wid t) k pre)).
  { unfold s1. destruct (wid t =? rl_cur s)%Z eqn:E.
    - apply Z.eqb_eq in E. destruct s as [cur [c|]]; cbn [rl_cur rl_counters] in *.
      + exists c. rewrite E. split; [reflexivity|apply Hc].
      + exfalso. lia.
    - exists (fun _ => 0%N). split; [reflexivity|]. intros k. apply Z.eqb_neq in E.
      rewrite hits_zero; [reflexivity|]. intros e He.
      destruct (rl_counters s) as [c|]; [|destruct Hc as [_ ->]; destruct He].
      destruct Hc as [(e' & He' & Ee) _]. specialize (Hord e' He'). specialize (Hle e He). lia. }
  destruct H1 as (c & E1 & Hk). rewrite E1. cbn [rl_counters rl_cur].
  eexists. split; [rewrite Hk; reflexivity|]. split; cbn [rl_cur rl_counters].
  - intros e He. apply in_app_or in He. destruct He as [He|[<-|[]]]; [apply Hord, He|cbn [fst]; lia].
  - split; [exists (t, x); split; [apply in_or_app; right; left; reflexivity|reflexivity]|].
    intros k. rewrite hits_app, hits_one, Z.eqb_refl. cbn [andb]. rewrite (String.eqb_sym (key x) k).
    destruct (String.eqb k (key x)) eqn:Ek.
    + apply String.eqb_eq in Ek. subst k. try rewrite Hk. pose proof (hits_le (wid t) (key x) pre).
      rewrite N.mod_small by lia. lia.
    + rewrite Hk. lia.
Qed.

Lemma run_spec h : forall pre s, inv pre s ->
  (forall e, In e h -> (0 < wid (fst e))%Z) ->
  (forall a t x b, h = a ++ (t, x) :: b -> forall e, In e (pre ++ a) -> (wid (fst e) <= wid t)%Z) ->
  (N.of_nat (length (pre ++ h)) < 2 ^ 64)%N ->
  forall a t x b, h = a ++ (t, x) :: b ->
    nth_error (rl_run ipString o limit h s) (length a) =
    Some (if (rl_requests o <=? N.of_nat (hits (wid t) (key x) (pre ++ a)))%N then if limit then RlLimit else RlDrop else RlForward).
Proof.
  induction h as [|[t0 x0] h IH]; intros pre s Hi Hp Ho Hl a t x b E; [destruct a; discriminate E|].
  cbn [rl_run]. destruct (step pre s t0 x0 Hi) as (s' & -> & Hi').
  - apply (Hp (t0, x0)). left. reflexivity.
  - intros e He. apply (Ho [] t0 x0 h eq_refl). rewrite app_nil_r. exact He.
  - rewrite app_length in Hl. cbn [length] in Hl. lia.
  - destruct a as [|[t1 x1] a]; cbn [app] in E.
    + injection E as <- <- <-. rewrite app_nil_r. reflexivity.
    + injection E as <- <- E. cbn [length nth_error].
      rewrite (IH (pre ++ [(t0, x0)]) s' Hi') with (t := t) (x := x) (b := b).
      * rewrite <- app_assoc. reflexivity.
      * intros e He. apply Hp. right. exact He.
      * intros a' t' x' b' E' e He. rewrite <- app_assoc in He. apply (Ho ((t0, x0) :: a') t' x' b'); [cbn [app]; rewrite E'; reflexivity|exact He].
      * rewrite <- app_assoc. exact Hl.
      * exact E.
Qed.
Lemma run_length h : forall s, length (rl_run ipString o limit h s) = length h.
Proof.
  induction h as [|[t x] h IH]; intros s; [reflexivity|]. cbn [rl_run]. destruct (rl_resolve ipString o limit x t s) as [s' r].
  cbn [length]. rewrite IH. reflexivity.
Qed.
End Run.

(** ** Independent statement *)
Definition rl_valid (ipString : bytes -> string) (o : rl_opts) (h : list (Z * bytes)) : Prop :=
  ip_text ipString /\ (0 < rl_window o /\ rl_prefix4 o <= 32 /\ rl_prefix6 o <= 128)%N /\
  ordered (Z.of_N (rl_window o)) (Z.of_N (rl_window o)) h /\ Forall (fun e => ip_ok (snd e)) h /\ (N.of_nat (length h) < 2 ^ 64)%N.

Lemma ordered_ge w h : forall l, ordered w l h -> forall e, In e h -> (l <= fst e)%Z.
Proof.
  induction h as [|[t x] h IH]; intros l H e He; [destruct He|]. destruct H as [H1 H2]. destruct He as [<-|He]; [exact H1|]. specialize (IH t H2 e He). lia.
Qed.
Lemma ordered_before w a : forall l t x b, ordered w l (a ++ (t, x) :: b) -> forall e, In e a -> (fst e <= t)%Z.
Proof.
  induction a as [|[u y] a IH]; intros l t x b H e He; [destruct He|]. cbn [app ordered] in H. destruct H as [H1 H2].
  destruct He as [<-|He]; [|exact (IH u t x b H2 e He)].
  apply (ordered_ge w _ u H2 (t, x)). apply in_or_app. right. left. reflexivity.
Qed.
Lemma wid_mono o t u : (0 < rl_window o)%N -> (0 <= t <= u)%Z -> (rl_window_id o t <= rl_window_id o u)%Z.
Proof. intros Hw H. unfold rl_window_id. rewrite !Z.quot_div_nonneg by lia. apply Z.div_le_mono; lia. Qed.

(** e comes from the subnet of x and falls into the window of t. *)
Definition same_client (o : rl_opts) (t : Z) (x : bytes) (e : Z * bytes) : Prop :=
  same_window (Z.of_N (rl_window o)) (fst e) t /\ same_subnet (rl_prefix4 o) (rl_prefix6 o) (snd e) x.

Lemma hits_count ipString o h t x : rl_valid ipString o h -> ip_ok x -> (0 <= t)%Z ->
  forall a, incl a h -> forall n, count (same_client o t x) a n <-> n = N.of_nat (hits ipString o (rl_window_id o t) (rl_key ipString o x) a).
Proof.
  intros (T & (Hw & H4 & H6) & Ho & Hf & _) Hx Ht a Ha n. apply count_filter. intros [u y] He. cbn [fst snd].
  rewrite Forall_forall in Hf. assert (Hy := Hf _ (Ha _ He)). cbn [snd] in Hy.
  assert (Hu := ordered_ge _ _ _ Ho _ (Ha _ He)). cbn [fst] in Hu.
  rewrite andb_true_iff, Z.eqb_eq, String.eqb_eq. unfold same_client. cbn [fst snd].
  rewrite (key_subnet ipString o y x T Hy Hx H4 H6). unfold rl_window_id. rewrite window_same by lia. reflexivity.
Qed.

Lemma exact_outcome ipString o limit a t x b n : rl_valid ipString o (a ++ (t, x) :: b) ->
  count (same_client o t x) a n ->
  nth_error (rl_run ipString o limit (a ++ (t, x) :: b) rl_init) (length a) =
  Some (if (n <? rl_requests o)%N then RlForward else if limit then RlLimit else RlDrop).
Proof.
  intros V C. assert (V' := V). destruct V' as (T & (Hw & H4 & H6) & Ho & Hf & Hl).
  assert (Hin : In (t, x) (a ++ (t, x) :: b)) by (apply in_or_app; right; left; reflexivity).
  assert (Ht := ordered_ge _ _ _ Ho _ Hin). cbn [fst] in Ht.
  assert (Hx : ip_ok x) by (rewrite Forall_forall in Hf; exact (Hf _ Hin)).
  apply (hits_count ipString o (a ++ (t, x) :: b) t x V Hx ltac:(lia) a ltac:(apply incl_appl, incl_refl)) in C.
  rewrite (run_spec ipString o limit (a ++ (t, x) :: b) [] rl_init (inv_init ipString o)) with (t := t) (x := x) (b := b).
  - cbn [app]. rewrite C. f_equal. rewrite N.ltb_antisym. destruct (_ <=? _)%N; reflexivity.
  - intros e He. assert (G := ordered_ge _ _ _ Ho _ He). unfold rl_window_id.
    apply (Z.lt_le_trans _ 1%Z); [lia|]. rewrite Z.quot_div_nonneg by lia. apply Z.div_le_lower_bound; lia.
  - intros a' t' x' b' E e He. cbn [app] in He. rewrite E in Ho. apply wid_mono; [exact Hw|]. split; [|exact (ordered_before _ _ _ _ _ _ Ho _ He)].
    assert (G := ordered_ge _ _ _ Ho e ltac:(apply in_or_app; left; exact He)). lia.
  - cbn [app]. exact Hl.
  - reflexivity.
Qed.

(** How many were forwarded *)
Lemma forwarded_bound ipString o limit t x : forall h, rl_valid ipString o h -> ip_ok x -> (Z.of_N (rl_window o) <= t)%Z ->
  forall total, count (same_client o t x) h total ->
  count (fun e => same_client o t x (fst e) /\ snd e = RlForward) (combine h (rl_run ipString o limit h rl_init)) (N.min total (rl_requests o)).
Proof.
  intros h V Hx Ht total C. assert (V' := V). destruct V' as (T & (Hw & H4 & H6) & Ho & Hf & Hl).
  set (f := fun e : Z * bytes => Z.eqb (rl_window_id o (fst e)) (rl_window_id o t) && String.eqb (rl_key ipString o (snd e)) (rl_key ipString o x)).
  set (fw := fun r => match r with RlForward => true | _ => false end).
  assert (Hsame : forall e, In e h -> (f e = true <-> same_client o t x e)).
  { intros [u y] He. unfold f, same_client. cbn [fst snd]. rewrite Forall_forall in Hf. assert (Hy := Hf _ He). cbn [snd] in Hy.
    assert (Hu := ordered_ge _ _ _ Ho _ He). cbn [fst] in Hu. rewrite andb_true_iff, Z.eqb_eq, String.eqb_eq.
    rewrite (key_subnet ipString o y x T Hy Hx H4 H6). unfold rl_window_id. rewrite window_same by lia. reflexivity. }
  apply (count_filter f _ _ Hsame) in C. subst total.
  apply (count_filter (fun e => f (fst e) && fw (snd e))).
  - intros [e r] He. cbn [fst snd]. apply in_combine_l in He. rewrite andb_true_iff, (Hsame e He). unfold fw. destruct r; intuition congruence.
  - assert (G : forall a b, a ++ b = h -> forall n, n = length (filter f a) ->
        N.min (N.of_nat n + N.of_nat (length (filter f b))) (rl_requests o) =
        (N.min (N.of_nat n) (rl_requests o) + N.of_nat (length (filter (fun e => f (fst e) && fw (snd e)) (combine b (skipn (length a) (rl_run ipString o limit h rl_init))))))%N).
    { intros a b. revert a. induction b as [|[u y] b IH]; intros a E n Hn.
      - cbn [filter combine length]. lia.
      - assert (Hin : In (u, y) h) by (rewrite <- E; apply in_or_app; right; left; reflexivity).
        assert (Hcnt : exists m, count (same_client o u y) a m /\ (f (u, y) = true -> m = N.of_nat n)).
        { exists (N.of_nat (hits ipString o (rl_window_id o u) (rl_key ipString o y) a)). split.
          - apply (hits_count ipString o h u y V); [rewrite Forall_forall in Hf; exact (Hf _ Hin)| |intros e He; rewrite <- E; apply in_or_app; left; exact He|reflexivity].
            assert (Hu := ordered_ge _ _ _ Ho _ Hin). cbn [fst] in Hu. lia.
          - unfold f at 1. cbn [fst snd]. rewrite andb_true_iff, Z.eqb_eq, String.eqb_eq. intros [-> ->]. subst n. reflexivity. }
        destruct Hcnt as (m & Hm & Em). rewrite <- E in V.
        assert (R := exact_outcome ipString o limit a u y b m V Hm). rewrite E in R.
        apply Cidr_proofs.nth_skipn in R. rewrite R. cbn [combine filter fst snd].
        specialize (IH (a ++ [(u, y)])). rewrite <- app_assoc in IH. specialize (IH E (length (filter f (a ++ [(u, y)]))) eq_refl).
        rewrite filter_app, app_length in IH. cbn [filter] in IH. rewrite app_length in IH. cbn [length] in IH. replace (length a + 1) with (S (length a)) in IH by lia.
        destruct (f (u, y)) eqn:Ef; cbn [andb length] in *.
        + specialize (Em eq_refl). subst m. destruct (N.of_nat n <? rl_requests o)%N eqn:EL; unfold fw at 1.
          * cbn [length]. lia.
          * destruct limit; lia.
        + lia. }
    specialize (G [] h eq_refl 0 eq_refl). cbn [length skipn] in G. cbn [N.of_nat] in G. rewrite N.add_0_l, N.min_0_l, N.add_0_l in G. exact G.
Qed.

Lemma defaults_spec : forall o, let d := rl_defaults o in
  (rl_requests d = rl_requests o /\ 0 < rl_window d /\ 0 < rl_prefix4 d /\ 0 < rl_prefix6 d /\
  (rl_window o = 0 -> rl_window d = 60) /\ (rl_prefix4 o = 0 -> rl_prefix4 d = 24) /\ (rl_prefix6 o = 0 -> rl_prefix6 d = 56) /\
  (rl_window o <> 0 -> rl_window d = rl_window o) /\ (rl_prefix4 o <> 0 -> rl_prefix4 d = rl_prefix4 o) /\ (rl_prefix6 o <> 0 -> rl_prefix6 d = rl_prefix6 o))%N.
Proof.
  intros [r w p4 p6] d. subst d. unfold rl_defaults. cbn [rl_requests rl_window rl_prefix4 rl_prefix6].
  destruct (N.eqb_spec w 0), (N.eqb_spec p4 0), (N.eqb_spec p6 0); repeat split; lia.
Qed.
Lemma race_refuted : forall ipString, exists o h, 
  rl_requests o = 1%N /\ map fst h = [60; 119; 120; 119; 120]%Z /\ Forall (fun e => snd e = [10; 0; 0; 1]%N) h /\
  rl_run ipString o false h rl_init = [RlForward; RlDrop; RlForward; RlForward; RlForward].
Proof.
  intros ipString. exists (RlOpts 1 60 24 56), (map (fun t => (t, [10;0;0;1]%N)) [60; 119; 120; 119; 120]%Z).
  split; [reflexivity|]. split; [reflexivity|]. split; [repeat constructor|].
  cbn [map rl_run]. unfold rl_resolve, rl_count.
  set (k := rl_key ipString (RlOpts 1 60 24 56) [10; 0; 0; 1]%N). clearbody k.
  repeat match goal with |- context [rl_window_id ?o ?t] => let v := eval vm_compute in (rl_window_id o t) in change (rl_window_id o t) with v end.
  cbn. rewrite !String.eqb_refl. reflexivity.
Qed.
Lemma epoch_refuted : forall ipString o limit x t, (0 < rl_window o)%N -> (0 <= t < Z.of_N (rl_window o))%Z ->
  rl_run ipString o limit [(t, x)] rl_init = [RlPanic].
Proof.
  intros ipString o limit x t Hw Ht. cbn [rl_run]. unfold rl_resolve, rl_count, rl_window_id. rewrite Z.quot_small by lia. reflexivity.
Qed.
Lemma prefix_refuted : forall ipString o x y, (32 < rl_prefix4 o)%N -> is_v4 x -> is_v4 y -> ip_ok x -> ip_ok y ->
  rl_key ipString o x = rl_key ipString o y.
Proof.
  assert (G : forall ipString o x, (32 < rl_prefix4 o)%N -> is_v4 x -> ip_ok x -> rl_key ipString o x = ipString []).
  { intros ipString o x H V Hx. unfold rl_key, cidr_mask. replace (rl_prefix4 o <=? N.of_nat (8 * 4))%N with false by lia.
    destruct (Net_proofs.v4_or x Hx) as [[L E]|[(M & L & E)|(NV & _ & _)]]; [| |contradiction]; rewrite E;
      unfold ip_mask; cbn [length Nat.eqb andb]; rewrite L; reflexivity. }
  intros ipString o x y H Vx Vy Hx Hy. rewrite !G by assumption. reflexivity.
Qed.

(** A text form: the 128 bits *)
Definition demo_text (a : bytes) : string :=
  string_of_bytes (if Nat.eqb (length a) 4 then v4prefix ++ a else a).
Lemma sob_inj a : forall b, bytes_ok a -> bytes_ok b -> string_of_bytes a = string_of_bytes b -> a = b.
Proof.
  induction a as [|x a IH]; intros [|y b] Ha Hb E; try discriminate; [reflexivity|]. cbn [string_of_bytes] in E.
  injection E as E1 E2. inversion Ha as [|? ? Hx Ha']. inversion Hb as [|? ? Hy Hb']. subst. unfold byte_ok in *.
  apply (f_equal N_of_ascii) in E1. rewrite !N_ascii_embedding in E1 by assumption. rewrite E1, (IH b Ha' Hb' E2). reflexivity.
Qed.
Lemma demo_text_ok : ip_text demo_text.
Proof.
  assert (V : bytes_ok v4prefix) by (repeat (constructor; [reflexivity|]); constructor).
  assert (G : forall a, ip_ok a -> let x := if Nat.eqb (length a) 4 then v4prefix ++ a else a in bytes_ok x /\ length x = 16 /\ ipval x = val128 a).
  { intros a [B [L|L]] x; subst x; rewrite L; cbn [Nat.eqb].
    - split; [apply Forall_app; split; assumption|]. split; [rewrite app_length, L; reflexivity|].
      rewrite Cidr_proofs2.ipval_app, Net_proofs.val128_4 by exact L. rewrite L. reflexivity.
    - split; [exact B|]. split; [exact L|]. rewrite Net_proofs.val128_16 by exact L. reflexivity. }
  intros a b Ha Hb. destruct (G a Ha) as (B1 & L1 & V1). destruct (G b Hb) as (B2 & L2 & V2). cbv zeta in *. unfold demo_text. split.
  - intros E. apply sob_inj in E; [|assumption|assumption]. rewrite <- V1, <- V2. exact (f_equal ipval E).
  - intros E. f_equal. apply Cidr_proofs2.ipval_inj; [assumption|assumption|exact (eq_trans L1 (eq_sym L2))|exact (eq_trans V1 (eq_trans E (eq_sym V2)))].
Qed.
Lemma demo_run : let h := [(120, [10;0;0;1]); (121, [10;0;1;1]); (122, [10;0;0;2]); (123, [10;0;0;3]);
                            (179, [32;1;13;184;0;0;0;0;0;0;0;0;0;0;0;1]); (180, [10;0;0;3])]%Z in
  let h := map (fun e => (fst e, map Z.to_N (snd e))) h in
  rl_run demo_text (RlOpts 2 60 24 56) true h rl_init = [RlForward; RlForward; RlForward; RlLimit; RlForward; RlForward] /\
  ordered 60 60 h /\ Forall (fun e => ip_ok (snd e)) h.
Proof.
  intros h0 h. split; [vm_compute; reflexivity|]. split; [cbn; lia|].
  repeat (constructor; [split; [repeat (constructor; [reflexivity|]); constructor|cbn; auto]|]). constructor.
Qed.
