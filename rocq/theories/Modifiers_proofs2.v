(** Lemmas about the EDNS0, ECS and TTL modifiers and the response elements. *)
From Verif Require Import Base Bytes Dns Net Cidr_spec Cidr_proofs2 Modifiers_model Modifiers_spec Modifiers_proofs.
From Coq Require Import ZifyBool ZifyNat ZifyN.
Local Open Scope N_scope.

Lemma has_not_no m pre r post : has_opt m pre r post -> ~ no_edns0 m.
Proof. intros (Ex & T & _) N. unfold no_edns0 in N. rewrite Ex in N. apply Forall_app in N. destruct N as [_ N]. inversion N. contradiction. Qed.

(** ** Removing options *)
Lemma filter_without {A} (f : A -> bool) (P : A -> Prop) l : (forall x, f x = true <-> ~ P x) -> (forall x, f x = false <-> P x) ->
  without P l (filter f l).
Proof.
  intros T F. induction l as [|o l IH]; cbn [filter]; [constructor|]. destruct (f o) eqn:E; constructor; try assumption; [apply T|apply F]; exact E.
Qed.

Lemma filter_removed (f : edns0 -> bool) (P : edns0 -> Prop) m : opt_wf m ->
  (forall x, f x = true <-> ~ P x) -> (forall x, f x = false <-> P x) ->
  removed P m (match is_edns0 m with None => m | Some o => update_edns0 (opt_set_options (filter f (opt_options o))) m end).
Proof.
  intros W T F. destruct (is_edns0_cases m) as [[N E0]|(pre & r & post & H & E0 & U)]; rewrite E0.
  - split; [reflexivity|contradiction].
  - split; [intros N; destruct (has_not_no _ _ _ _ H N)|]. intros _. eapply edit_of; [exact W|exact H|]. apply filter_without; assumption.
Qed.

Lemma delete_removed code q : opt_wf q -> removed (fun o => opt_code o = code) q (EDNS0ModifierDelete code q).
Proof.
  intros W. apply (filter_removed (fun x => negb (N.eqb (opt_code x) code))); [exact W| |]; intros x; destruct (N.eqb_spec (opt_code x) code); cbn [negb]; split; congruence.
Qed.

Lemma is_ecs_subnet o : is_ecs o = true <-> subnet o.
Proof.
  unfold subnet. destruct o; cbn; split; intros H; try discriminate; try reflexivity;
    try (destruct H as (f & m & s & a & H); discriminate). repeat eexists.
Qed.

Lemma ecs_delete_removed q : opt_wf q -> removed subnet q (ECSModifierDelete q).
Proof.
  intros W. apply (filter_removed (fun x => negb (is_ecs x))); [exact W| |]; intros x; rewrite <- is_ecs_subnet; destruct (is_ecs x); cbn [negb]; split; congruence.
Qed.

(** ** Appending an option *)
Lemma wf_edit P m m' : opt_wf m -> opt_edit P m m' -> opt_wf m'.
Proof.
  intros W (pre & r & post & opts & opts' & Ex & T & F & D & _ & ->). unfold opt_wf in *. cbn [m_extra set_extra]. rewrite Ex in W.
  apply Forall_app in W. destruct W as [W1 W2]. inversion W2; subst. apply Forall_app. split; [assumption|]. constructor; [intros _; eexists; reflexivity|assumption].
Qed.

Lemma append_replaced P o m m' : opt_wf m -> removed P m m' -> replaced P o m (append_option o m').
Proof.
  intros W [R1 R2]. split.
  - intros N. rewrite (R1 N). unfold append_option. destruct (is_edns0_cases m) as [[_ E0]|(pre & r & post & H & _)]; [|destruct (has_not_no _ _ _ _ H N)].
    rewrite E0. pose proof (set_edns0_has m 4096 false N) as H. destruct (has_opt_is _ _ _ _ H) as [_ U]. rewrite U.
    split; [exact N|]. unfold set_edns0. rewrite set_extra_extra. reflexivity.
  - intros N. destruct (R2 N) as (pre & r & post & opts & k & Ex & T & F & D & Wo & E).
    assert (H : has_opt m' pre (with_opts k r) post). { rewrite E. split; [reflexivity|]. split; assumption. }
    unfold append_option. destruct (has_opt_is _ _ _ _ H) as [-> U]. rewrite U, E, set_extra_extra.
    exists pre, r, post, opts, (k ++ [o]). repeat (split; [assumption|]). split; [exists k; split; [exact Wo|reflexivity]|reflexivity].
Qed.

Lemma add_replaced code data q : opt_wf q -> replaced (fun o => opt_code o = code) (LOCAL code data) q (EDNS0ModifierAdd code data q).
Proof. intros W. apply append_replaced; [exact W|]. apply delete_removed, W. Qed.

(** ** Masks *)
Lemma cidr_mask_length p n : p <= N.of_nat (8 * n) -> length (cidr_mask p n) = n.
Proof.
  intros H. unfold cidr_mask. apply N.leb_le in H. rewrite H. clear. revert p. assert (G : forall k, length (mask_bytes k n) = n).
  { induction n as [|n IH]; intros k; [reflexivity|]. cbn. rewrite IH. reflexivity. } intros p. apply G.
Qed.

Lemma mask_same ip p : ip_ok ip -> p <= N.of_nat (8 * length ip) -> first_addr ip (N.to_nat p) (ip_mask ip (cidr_mask p (length ip))).
Proof.
  intros [B L] H. unfold ip_mask. cbv zeta. rewrite cidr_mask_length by exact H.
  assert (E1 : Nat.eqb (length ip) 16 && Nat.eqb (length ip) 4 = false) by (destruct L as [-> | ->]; reflexivity).
  rewrite E1. cbn [andb]. try rewrite cidr_mask_length by exact H.
  assert (E2 : Nat.eqb (length ip) 4 && Nat.eqb (length ip) 16 = false) by (destruct L as [-> | ->]; reflexivity).
  rewrite E2. cbn [andb]. try rewrite cidr_mask_length by exact H. rewrite Nat.eqb_refl.
  unfold cidr_mask. apply N.leb_le in H. rewrite H. apply land_first_addr; [exact B|]. apply N.leb_le in H. lia.
Qed.

Lemma plain_to4 ip : ip_ok ip ->
  match to4 ip with
  | Some x => plain_addr ip x /\ ip_ok x /\ length x = 4%nat
  | None => plain_addr ip ip /\ length ip = 16%nat
  end.
Proof.
  intros [B [L|L]].
  - rewrite (to4_4 ip L). split; [left; split; [intros [L' _]; lia|reflexivity]|]. split; [split; [exact B|left; exact L]|exact L].
  - destruct (mapped_dec ip B L) as [M|M].
    + rewrite (proj1 (to4_16 ip B L) M). assert (Ls : length (skipn 12 ip) = 4%nat) by (rewrite skipn_length; lia).
      split; [right; exists (firstn 12 ip); split; [exact M|]; split; [symmetry; apply firstn_skipn|exact Ls]|].
      split; [|exact Ls]. split; [|left; exact Ls]. rewrite <- (firstn_skipn 12 ip) in B. apply Forall_app in B. apply B.
    + rewrite (proj2 (to4_16 ip B L) M). split; [left; split; [exact M|reflexivity]|exact L].
Qed.

Lemma ecs_option_of ip prefix4 prefix6 : ip_ok ip -> prefix4 <= 32 -> prefix6 <= 128 -> subnet_of ip prefix4 prefix6 (ecs_option ip prefix4 prefix6).
Proof.
  intros H H4 H6. pose proof (plain_to4 ip H) as P. unfold ecs_option, subnet_of. destruct (to4 ip) as [x|].
  - destruct P as (P & Hx & L). exists x. split; [exact P|]. left. split; [exact L|]. eexists. split; [|reflexivity].
    replace (cidr_mask prefix4 4) with (cidr_mask prefix4 (length x)) by (rewrite L; reflexivity). apply mask_same; [exact Hx|]. rewrite L. exact H4.
  - destruct P as (P & L). exists ip. split; [exact P|]. right. split; [exact L|]. eexists. split; [|reflexivity].
    replace (cidr_mask prefix6 16) with (cidr_mask prefix6 (length ip)) by (rewrite L; reflexivity). apply mask_same; [exact H|]. rewrite L. exact H6.
Qed.

Lemma ecs_add addr prefix4 prefix6 ci q : opt_wf q -> prefix4 <= 32 -> prefix6 <= 128 ->
  let ip := match addr with [] => ci_ip ci | _ => addr end in ip_ok ip ->
  exists o, subnet_of ip prefix4 prefix6 o /\ replaced subnet o q (ECSModifierAdd addr prefix4 prefix6 ci q).
Proof.
  intros W H4 H6 ip Hip. exists (ecs_option ip prefix4 prefix6). split; [apply ecs_option_of; assumption|].
  unfold ECSModifierAdd. apply append_replaced; [exact W|]. apply ecs_delete_removed, W.
Qed.

Lemma existsb_subnet l : existsb is_ecs l = true <-> Exists subnet l.
Proof. rewrite existsb_exists, Exists_exists. split; intros (o & I & H); exists o; (split; [exact I|]); apply is_ecs_subnet; exact H. Qed.

Lemma ecs_if_missing addr prefix4 prefix6 ci q : opt_wf q ->
  (has_subnet q -> ECSModifierAddIfMissing addr prefix4 prefix6 ci q = q) /\
  (~ has_subnet q -> ECSModifierAddIfMissing addr prefix4 prefix6 ci q = ECSModifierAdd addr prefix4 prefix6 ci q).
Proof.
  intros W. unfold ECSModifierAddIfMissing. destruct (is_edns0_cases q) as [[N E0]|(pre & r & post & H & E0 & U)]; rewrite E0.
  - split; [|reflexivity]. intros (pre & r & post & opts & Ex & T & F & _). unfold no_edns0 in N. rewrite Ex in N. apply Forall_app in N.
    destruct N as [_ N]. inversion N. contradiction.
  - destruct (wf_opt _ _ _ _ W H) as (o & D & Eo). rewrite Eo. destruct (existsb is_ecs o) eqn:X.
    + split; [reflexivity|]. intros Nh. destruct Nh. destruct H as (Ex & T & F). exists pre, r, post, o. repeat (split; [assumption|]). apply existsb_subnet, X.
    + split; [|reflexivity]. intros (pre' & r' & post' & opts & Ex & T & F & D' & Xs). exfalso.
      destruct (split_unique _ _ _ _ _ _ _ H (conj Ex (conj T F))) as (_ & <- & _). rewrite D in D'. injection D' as <-. apply existsb_subnet in Xs. congruence.
Qed.

Lemma privacy_shortened prefix4 prefix6 o : prefix4 <= 32 -> prefix6 <= 128 -> subnet_wf o -> shortened prefix4 prefix6 o (privacy_option prefix4 prefix6 o).
Proof.
  intros H4 H6 W. destruct o as [f mask scope a|d|c t|t|c d|c d]; try (apply S_other; intros (? & ? & ? & ? & ?); discriminate).
  cbn [privacy_option]. destruct W as [W1 W2]. destruct (N.eqb_spec f 1) as [->|N1]; [|destruct (N.eqb_spec f 2) as [->|N2]].
  - destruct (W1 eq_refl) as (Ha & x & Px & Lx). pose proof (plain_to4 a Ha) as P.
    destruct (to4 a) as [y|].
    + destruct P as (P & Hy & L). apply S_v4 with (x := y); [exact P|exact L|].
      replace (cidr_mask prefix4 4) with (cidr_mask prefix4 (length y)) by (rewrite L; reflexivity). apply mask_same; [exact Hy|]. rewrite L. exact H4.
    + exfalso. destruct P as (P & L). destruct Px as [[_ ->]|(pre & M & -> & _)]; [lia|].
      destruct P as [[M' _]|(pre' & _ & _ & L')]; [contradiction|lia].
  - destruct (W2 eq_refl) as (Ha & L). apply S_v6; [exact L|]. replace (cidr_mask prefix6 16) with (cidr_mask prefix6 (length a)) by (rewrite L; reflexivity).
    apply mask_same; [exact Ha|]. rewrite L. exact H6.
  - apply S_family; assumption.
Qed.

Lemma ecs_privacy prefix4 prefix6 q : opt_wf q -> prefix4 <= 32 -> prefix6 <= 128 ->
  (forall r opts, In r (m_extra q) -> rr_data r = DOPT opts -> Forall subnet_wf opts) ->
  (no_edns0 q -> ECSModifierPrivacy prefix4 prefix6 q = q) /\
  (~ no_edns0 q -> opt_edit (Forall2 (shortened prefix4 prefix6)) q (ECSModifierPrivacy prefix4 prefix6 q)).
Proof.
  intros W H4 H6 Hw. unfold ECSModifierPrivacy. destruct (is_edns0_cases q) as [[N E0]|(pre & r & post & H & E0 & U)]; rewrite E0.
  - split; [reflexivity|contradiction].
  - split; [intros N; destruct (has_not_no _ _ _ _ H N)|]. intros _. eapply edit_of; [exact W|exact H|].
    destruct (wf_opt _ _ _ _ W H) as (o & D & Eo). rewrite Eo.
    assert (F : Forall subnet_wf o). { apply (Hw r o); [|exact D]. destruct H as (-> & _). apply in_elt. }
    clear - F H4 H6. induction F as [|x l Hx _ IH]; cbn [map]; [constructor|]. constructor; [apply privacy_shortened; assumption|exact IH].
Qed.

(** ** TTLs *)
Lemma is_opt_data r : is_opt r = negb (data_rr r).
Proof. unfold is_opt, data_rr. destruct (rr_data r); reflexivity. Qed.

Lemma map_ttl_is f l : Forall2 (fun r r' => ttl_is (f (rr_ttl r)) r r') l (map_ttl f l).
Proof.
  induction l as [|r l IH]; cbn [map_ttl map]; [constructor|]. constructor; [|exact IH]. unfold ttl_is, is_opt. destruct (rr_data r) eqn:D;
    try (right; split; [intros; congruence|unfold set_ttl; rewrite D; reflexivity]). left. split; [eexists; reflexivity|reflexivity].
Qed.

Lemma map_msg_ttl_is f m : ttl_mapped f m (map_msg_ttl f m).
Proof.
  exists (map_ttl f (m_answer m)), (map_ttl f (m_ns m)), (map_ttl f (m_extra m)). repeat (split; [apply map_ttl_is|]). reflexivity.
Qed.

Lemma map_ttl_map g f l : map_ttl g (map_ttl f l) = map_ttl (fun t => g (f t)) l.
Proof.
  unfold map_ttl. rewrite map_map. apply map_ext. intros r. destruct (is_opt r) eqn:E; [rewrite E; reflexivity|].
  assert (E' : is_opt (set_ttl (f (rr_ttl r)) r) = false) by exact E. rewrite E'. reflexivity.
Qed.
Lemma map_msg_ttl_map g f m : map_msg_ttl g (map_msg_ttl f m) = map_msg_ttl (fun t => g (f t)) m.
Proof. unfold map_msg_ttl. cbn [m_extra m_ns m_answer set_extra set_ns set_answer]. rewrite !map_ttl_map. reflexivity. Qed.

Lemma map_ttl_ext f g l : (forall r, In r l -> data_rr r = true -> f (rr_ttl r) = g (rr_ttl r)) -> map_ttl f l = map_ttl g l.
Proof.
  intros H. unfold map_ttl. apply map_ext_in. intros r I. rewrite is_opt_data. destruct (data_rr r) eqn:D; [|reflexivity]. cbn [negb]. rewrite (H r I D). reflexivity.
Qed.
Lemma map_msg_ttl_ext f g m : (forall r, In r (records m) -> f (rr_ttl r) = g (rr_ttl r)) -> map_msg_ttl f m = map_msg_ttl g m.
Proof.
  intros H. assert (G : forall r, In r (m_answer m ++ m_ns m ++ m_extra m) -> data_rr r = true -> f (rr_ttl r) = g (rr_ttl r)).
  { intros r I D. apply H. apply filter_In. split; assumption. }
  unfold map_msg_ttl. rewrite (map_ttl_ext f g (m_answer m)), (map_ttl_ext f g (m_ns m)), (map_ttl_ext f g (m_extra m)); [reflexivity| | |];
    intros r I D; apply G; auto; rewrite !in_app_iff; auto.
Qed.

Lemma ttls_records m : ttls m = map rr_ttl (records m).
Proof. unfold ttls, records. f_equal. apply filter_ext. intros r. rewrite is_opt_data. apply negb_involutive. Qed.


Lemma fold_low l : forall v, fold_left (fun lowest t => if t <? lowest then t else lowest) l v = v /\ (forall t, In t l -> v <= t) \/
  In (fold_left (fun lowest t => if t <? lowest then t else lowest) l v) l /\ fold_left (fun lowest t => if t <? lowest then t else lowest) l v <= v /\
  (forall t, In t l -> fold_left (fun lowest t => if t <? lowest then t else lowest) l v <= t).
Proof.
  induction l as [|x l IH]; intros v; cbn [fold_left]; [left; split; [reflexivity|intros t []]|].
  destruct (N.ltb_spec x v).
  - right. destruct (IH x) as [[E A]|(I & L & A)].
    + rewrite E. split; [left; reflexivity|]. split; [lia|]. intros t [<-|J]; [lia|apply A, J].
    + split; [right; exact I|]. split; [lia|]. intros t [<-|J]; [exact L|apply A, J].
  - destruct (IH v) as [[E A]|(I & L & A)].
    + left. split; [exact E|]. intros t [<-|J]; [lia|apply A, J].
    + right. split; [right; exact I|]. split; [exact L|]. intros t [<-|J]; [lia|apply A, J].
Qed.

Lemma fold_high l : forall v, fold_left (fun highest t => if highest <? t then t else highest) l v = v /\ (forall t, In t l -> t <= v) \/
  In (fold_left (fun highest t => if highest <? t then t else highest) l v) l /\ v <= fold_left (fun highest t => if highest <? t then t else highest) l v /\
  (forall t, In t l -> t <= fold_left (fun highest t => if highest <? t then t else highest) l v).
Proof.
  induction l as [|x l IH]; intros v; cbn [fold_left]; [left; split; [reflexivity|intros t []]|].
  destruct (N.ltb_spec v x).
  - right. destruct (IH x) as [[E A]|(I & L & A)].
    + rewrite E. split; [left; reflexivity|]. split; [lia|]. intros t [<-|J]; [lia|apply A, J].
    + split; [right; exact I|]. split; [lia|]. intros t [<-|J]; [exact L|apply A, J].
  - destruct (IH v) as [[E A]|(I & L & A)].
    + left. split; [exact E|]. intros t [<-|J]; [lia|apply A, J].
    + right. split; [right; exact I|]. split; [exact L|]. intros t [<-|J]; [lia|apply A, J].
Qed.

Lemma fold_sum l : forall v, fold_left N.add l v = v + sum l.
Proof. induction l as [|x l IH]; intros v; cbn [fold_left sum fold_right]; [lia|]. rewrite IH. unfold sum. lia. Qed.

Lemma sum_bound l : Forall (fun t => t <= MaxUint32) l -> sum l <= MaxUint32 * N.of_nat (length l).
Proof. induction 1 as [|x l Hx _ IH]; [reflexivity|]. cbn [sum fold_right length]. unfold sum in IH. unfold MaxUint32 in *. lia. Qed.

Definition selected (lo hi : N) (l : list N) (s : ttlselect) (v : N) : Prop :=
  match s with
  | SelLowest => is_lowest l v
  | SelHighest => is_highest l v
  | SelAverage => is_average l v
  | SelFirst => is_first l v
  | SelLast => is_last l v
  | SelRandom => is_between lo hi v
  end.

Lemma select_ok intn lo hi s l : l <> [] -> Forall (fun t => t <= MaxUint32) l -> lo <= MaxUint32 -> hi <= MaxUint32 ->
  (forall n, 0 < n -> intn n < n) ->
  selected lo hi l s (select_value intn lo (if N.eqb hi 0 then MaxUint32 else hi) s l).
Proof.
  intros Hl B Hlo Hhi Hr. destruct s; cbn [selected select_value].
  - destruct (fold_low l MaxUint32) as [[E A]|(I & L & A)]; [|split; assumption]. rewrite E.
    destruct l as [|x l]; [destruct Hl; reflexivity|]. inversion B as [|? ? Bx _]; subst. pose proof (A x (or_introl eq_refl)).
    split; [left; lia|]. exact A.
  - destruct (fold_high l 0) as [[E A]|(I & L & A)]; [|split; assumption]. rewrite E.
    destruct l as [|x l]; [destruct Hl; reflexivity|]. pose proof (A x (or_introl eq_refl)). split; [left; lia|]. exact A.
  - assert (Ln : Nat.eqb (length l) 0 = false) by (destruct l; [destruct Hl; reflexivity|reflexivity]). rewrite Ln.
    cbv zeta. rewrite fold_sum, N.add_0_l. pose proof (sum_bound l B) as Sb.
    assert (P : 0 < N.of_nat (length l)) by (destruct l; [destruct Hl; reflexivity|cbn; lia]).
    assert (Q : sum l / N.of_nat (length l) <= MaxUint32).
    { apply N.div_le_upper_bound; [lia|]. lia. }
    rewrite N.mod_small by (unfold MaxUint32 in Q; change (2^32) with 4294967296; lia).
    unfold is_average. pose proof (N.mul_div_le (sum l) (N.of_nat (length l)) ltac:(lia)) as M1.
    pose proof (N.mul_succ_div_gt (sum l) (N.of_nat (length l)) ltac:(lia)) as M2.
    rewrite <- N.add_1_r in M2. split; lia.
  - destruct l as [|x l]; [destruct Hl; reflexivity|]. exists l. reflexivity.
  - exists (removelast l). apply app_removelast_last, Hl.
  - unfold is_between. destruct (N.eqb_spec hi 0) as [->|Nz].
    + split; [|split; [intros F; destruct F; reflexivity|intros F; destruct F; reflexivity]]. intros _.
      destruct (N.ltb_spec lo MaxUint32) as [L|L]; [|lia]. pose proof (Hr (MaxUint32 - lo) ltac:(lia)) as R.
      rewrite N.mod_small by (unfold MaxUint32 in *; change (2^32) with 4294967296; lia). lia.
    + split; [intros; contradiction|]. split.
      * intros _ L. apply N.ltb_lt in L. rewrite L. apply N.ltb_lt in L. pose proof (Hr (hi - lo) ltac:(lia)) as R.
        rewrite N.mod_small by (unfold MaxUint32 in *; change (2^32) with 4294967296; lia). lia.
      * intros _ L. assert (F : (lo <? hi) = false) by (apply N.ltb_ge; exact L). rewrite F. reflexivity.
Qed.

Lemma limit_ok lo hi t : lo <= MaxUint32 -> t <= MaxUint32 -> hi <= MaxUint32 ->
  (let t := if t <? lo then lo else t in if (if N.eqb hi 0 then MaxUint32 else hi) <? t then (if N.eqb hi 0 then MaxUint32 else hi) else t) = limited lo hi t.
Proof.
  intros. unfold limited. cbv zeta. destruct (N.eqb_spec hi 0); destruct (N.ltb_spec t lo); 
    match goal with |- context [?a <? ?b] => destruct (N.ltb_spec a b) end; lia.
Qed.

Lemma ttl_none intn lo hi a : lo <= MaxUint32 -> hi <= MaxUint32 -> small_ttls a ->
  exists a', ttl_resolve intn None lo hi (Ans a) = Ans a' /\ ttl_mapped (limited lo hi) a a'.
Proof.
  intros Hlo Hhi Sm. unfold ttl_resolve. eexists. split; [reflexivity|].
  rewrite (map_msg_ttl_ext _ (limited lo hi)); [apply map_msg_ttl_is|].
  intros r I. unfold small_ttls in Sm. rewrite Forall_forall in Sm. apply limit_ok; [exact Hlo|exact (Sm r I)|exact Hhi].
Qed.

Lemma ttl_some intn s lo hi a : lo <= MaxUint32 -> hi <= MaxUint32 -> small_ttls a -> (forall n, 0 < n -> intn n < n) ->
  exists a', ttl_resolve intn (Some s) lo hi (Ans a) = Ans a' /\
    ((records a = [] /\ a' = a) \/ exists v, selected lo hi (map rr_ttl (records a)) s v /\ ttl_mapped (fun _ => limited lo hi v) a a').
Proof.
  intros Hlo Hhi Sm Hr. unfold ttl_resolve. eexists. split; [reflexivity|]. rewrite map_msg_ttl_map.
  destruct (records a) as [|r0 rs] eqn:R.
  - left. split; [reflexivity|]. match goal with |- map_msg_ttl ?f a = a => rewrite (map_msg_ttl_ext f (fun t => t)) by (rewrite R; intros r []) end.
    unfold map_msg_ttl. assert (T : forall l, map_ttl (fun t => t) l = l).
    { intros l. unfold map_ttl. rewrite <- (map_id l) at 2. apply map_ext. intros r. destruct (is_opt r); [reflexivity|]. destruct r; reflexivity. }
    rewrite !T. destruct a; reflexivity.
  - right. set (v := select_value intn lo (if N.eqb hi 0 then MaxUint32 else hi) s (ttls a)).
    assert (Sv : selected lo hi (map rr_ttl (records a)) s v).
    { subst v. rewrite ttls_records. apply select_ok; auto; [rewrite R; discriminate|]. apply Forall_map. exact Sm. }
    exists v. rewrite R in Sv. split; [exact Sv|].
    assert (Vb : v <= MaxUint32).
    { subst v. rewrite ttls_records, R in *. unfold small_ttls in Sm. rewrite R in Sm. apply (proj2 (Forall_map rr_ttl (fun t => t <= MaxUint32) (r0 :: rs))) in Sm.
      destruct s; cbn [selected] in Sv.
      - destruct Sv as [I _]. rewrite Forall_forall in Sm. exact (Sm _ I).
      - destruct Sv as [I _]. rewrite Forall_forall in Sm. exact (Sm _ I).
      - cbn [select_value]. cbv zeta. apply N.lt_succ_r. change (N.succ MaxUint32) with (2^32). apply N.mod_lt. discriminate.
      - destruct Sv as [l' E]. rewrite E in Sm. inversion Sm; assumption.
      - destruct Sv as [l' E]. rewrite E in Sm. apply Forall_app in Sm. destruct Sm as [_ Sm]. inversion Sm; assumption.
      - cbn [select_value]. destruct (_ <? _); [|exact Hlo]. apply N.lt_succ_r. change (N.succ MaxUint32) with (2^32). apply N.mod_lt. discriminate. }
    rewrite (map_msg_ttl_ext _ (fun _ => limited lo hi v)); [apply map_msg_ttl_is|]. intros r I. apply limit_ok; assumption.
Qed.

Lemma limited_range lo hi t : lo <= hi -> hi <> 0 -> lo <= limited lo hi t <= hi.
Proof. intros. unfold limited. destruct (N.eqb_spec hi 0); lia. Qed.

Lemma modifier_panics base optlen q data : opt_wf q -> padQuery base optlen (EDNS0ModifierAdd 12 data q) = None.
Proof.
  intros W. pose proof (add_replaced 12 data q W) as [R1 R2].
  assert (NT : forall k, ~ padding_typed (k ++ [LOCAL 12 data])).
  { intros k T. apply Forall_app in T. destruct T as [_ T]. inversion T as [|? ? T1]; subst. destruct (T1 eq_refl). discriminate. }
  destruct (is_edns0_cases q) as [[N _]|(pre & r & post & H & _)].
  - destruct (R1 N) as [_ E]. rewrite E. apply pad_query_total.
    + unfold opt_wf. cbn [m_extra set_extra]. apply Forall_app. split; [exact W|]. constructor; [intros _; eexists; reflexivity|constructor].
    + eexists (m_extra q), _, [], _. split; [reflexivity|]. split; [reflexivity|]. split; [constructor|]. split; [reflexivity|]. apply (NT []).
  - pose proof (R2 (has_not_no _ _ _ _ H)) as Ed. apply pad_query_total; [eapply wf_edit; eassumption|].
    destruct Ed as (pre' & r' & post' & opts & opts' & Ex & T & F & D & (k & _ & ->) & ->).
    eexists pre', _, post', _. split; [reflexivity|]. split; [exact T|]. split; [exact F|]. split; [reflexivity|]. apply NT.
Qed.
