(** Lemmas about EDNS0 records and padding. *)
From Verif Require Import Base Bytes Dns Modifiers_model Modifiers_spec.
From Coq Require Import ZifyBool ZifyNat ZifyN.
Local Open Scope N_scope.

(** ** The EDNS0 record *)
Definition split_at (l pre : list rr) (r : rr) (post : list rr) : Prop :=
  l = pre ++ r :: post /\ rr_type r = 41 /\ Forall (fun x => rr_type x <> 41) post.

Lemma find_opt_split l :
  match find_opt l with
  | None => Forall (fun x => rr_type x <> 41) l /\ forall f, map_opt f l = l
  | Some r => exists pre post, split_at l pre r post /\ forall f, map_opt f l = pre ++ f r :: post
  end.
Proof.
  induction l as [|x l IH]; [split; [constructor|reflexivity]|].
  cbn [find_opt map_opt]. destruct (find_opt l) as [r|].
  - destruct IH as (pre & post & (E & T & F) & M). exists (x :: pre), post. split; [split; [cbn; congruence|split; assumption]|].
    intros f. rewrite M. reflexivity.
  - destruct IH as [F M]. unfold TypeOPT. destruct (N.eqb_spec (rr_type x) 41) as [E|E].
    + exists [], l. split; [split; [reflexivity|split; assumption]|]. reflexivity.
    + split; [constructor; assumption|]. reflexivity.
Qed.

Lemma split_unique l pre r post pre' r' post' : split_at l pre r post -> split_at l pre' r' post' -> pre = pre' /\ r = r' /\ post = post'.
Proof.
  intros (E & T & F) (E' & T' & F'). subst l. revert pre' E'. induction pre as [|x pre IH]; intros pre' E'.
  - destruct pre' as [|y pre']; cbn in E'; injection E' as -> ->; [repeat split|].
    apply Forall_app in F. destruct F as [_ F]. inversion F. contradiction.
  - destruct pre' as [|y pre']; cbn in E'; injection E' as -> E'.
    + subst post'. apply Forall_app in F'. destruct F' as [_ F']. inversion F'. contradiction.
    + destruct (IH _ E') as (-> & -> & ->). repeat split.
Qed.

Lemma find_opt_at l pre r post : split_at l pre r post -> find_opt l = Some r /\ forall f, map_opt f l = pre ++ f r :: post.
Proof.
  intros S. pose proof (find_opt_split l) as H. destruct (find_opt l) as [r'|].
  - destruct H as (pre' & post' & S' & M). destruct (split_unique _ _ _ _ _ _ _ S S') as (-> & -> & ->). split; [reflexivity|exact M].
  - destruct H as [F _]. destruct S as (-> & T & _). apply Forall_app in F. destruct F as [_ F]. inversion F. contradiction.
Qed.

Lemma find_opt_no l : Forall (fun x => rr_type x <> 41) l -> find_opt l = None.
Proof.
  intros F. pose proof (find_opt_split l) as H. destruct (find_opt l) as [r'|]; [|reflexivity].
  destruct H as (pre' & post' & (-> & T & _) & _). apply Forall_app in F. destruct F as [_ F]. inversion F. contradiction.
Qed.

Lemma split_replace l pre r post r' : split_at l pre r post -> rr_type r' = 41 -> split_at (pre ++ r' :: post) pre r' post.
Proof. intros (_ & _ & F) T. split; [reflexivity|]. split; assumption. Qed.

(** ** The record of a message *)
Definition has_opt (m : msg) (pre : list rr) (r : rr) (post : list rr) : Prop := split_at (m_extra m) pre r post.

Lemma is_edns0_cases m :
  (no_edns0 m /\ is_edns0 m = None) \/
  (exists pre r post, has_opt m pre r post /\ is_edns0 m = Some r /\ forall f, update_edns0 f m = set_extra (pre ++ f r :: post) m).
Proof.
  unfold is_edns0, update_edns0, no_edns0, has_opt. pose proof (find_opt_split (m_extra m)) as H.
  destruct (find_opt (m_extra m)) as [r|].
  - right. destruct H as (pre & post & S & M). exists pre, r, post. split; [exact S|]. split; [reflexivity|]. intros f. rewrite M. reflexivity.
  - left. split; [apply H|reflexivity].
Qed.

Lemma has_opt_is m pre r post : has_opt m pre r post -> is_edns0 m = Some r /\ forall f, update_edns0 f m = set_extra (pre ++ f r :: post) m.
Proof.
  intros H. destruct (find_opt_at _ _ _ _ H) as [F M]. unfold is_edns0, update_edns0. split; [exact F|]. intros f. rewrite M. reflexivity.
Qed.

Lemma set_extra_extra v w m : set_extra v (set_extra w m) = set_extra v m. Proof. reflexivity. Qed.

Lemma set_edns0_has m size do : no_edns0 m -> has_opt (set_edns0 size do m) (m_extra m) (new_opt size do []) [].
Proof. intros H. split; [reflexivity|]. split; [reflexivity|constructor]. Qed.

Definition with_opts (opts : list edns0) (r : rr) : rr := RR (rr_name r) (rr_type r) (rr_class r) (rr_ttl r) (DOPT opts).
Lemma opt_set_with opts r : opt_set_options opts r = with_opts opts r. Proof. reflexivity. Qed.

Lemma update_with m pre r post f : has_opt m pre r post -> rr_type (f r) = 41 ->
  has_opt (update_edns0 f m) pre (f r) post.
Proof.
  intros H T. destruct (has_opt_is _ _ _ _ H) as [_ U]. rewrite U. unfold has_opt. cbn [m_extra set_extra].
  eapply split_replace; eassumption.
Qed.

Lemma update_update m f g : (forall r, rr_type r = 41 -> rr_type (f r) = 41) ->
  update_edns0 g (update_edns0 f m) = update_edns0 (fun r => g (f r)) m.
Proof.
  intros T. destruct (is_edns0_cases m) as [[N E]|(pre & r & post & H & E & U)].
  - unfold update_edns0, is_edns0 in *. pose proof (find_opt_split (m_extra m)) as S. rewrite E in S. destruct S as [_ M].
    cbn [m_extra set_extra]. rewrite M, (M g), (M (fun r => g (f r))). reflexivity.
  - pose proof (update_with m pre r post f H (T r (proj1 (proj2 H)))) as H'.
    destruct (has_opt_is _ _ _ _ H') as [_ U']. rewrite U', (U (fun r => g (f r))), U. apply set_extra_extra.
Qed.

(** ** Padding options *)
Lemma has_padding_app a b : has_padding (a ++ b) = has_padding a || has_padding b.
Proof. apply existsb_app. Qed.

Lemma clear_typed l : padding_typed l -> exists r, clear_padding l = Some r /\
  filter other r = filter other l /\ has_padding r = has_padding l /\
  Forall (fun o => is_padding o -> o = PADDING []) r /\ padding_typed r.
Proof.
  induction 1 as [|o l Ho _ (r & E & F & P & A & T)].
  - exists []. repeat split; constructor.
  - cbn [clear_padding]. rewrite E. destruct (N.eqb_spec (opt_code o) 12) as [C|C].
    + destruct (Ho C) as [d ->]. exists (PADDING [] :: r). split; [reflexivity|]. cbn [filter other has_padding existsb opt_code].
      split; [exact F|]. split; [reflexivity|]. split; constructor; try assumption; intros; [reflexivity|eexists; reflexivity].
    + exists (o :: r). split; [reflexivity|]. split; [cbn [filter]; rewrite F; reflexivity|]. split; [cbn; unfold has_padding in P; rewrite P; reflexivity|].
      split; constructor; try assumption. intros [d ->]. destruct C. reflexivity.
Qed.

Lemma clear_untyped l r : clear_padding l = Some r -> padding_typed l.
Proof.
  revert r. induction l as [|o l IH]; intros r E; [constructor|]. cbn [clear_padding] in E.
  destruct (clear_padding l) as [r'|]; [|discriminate]. constructor; [|eapply IH; reflexivity].
  intros C. rewrite C in E. cbn [N.eqb Pos.eqb] in E. destruct o; try discriminate. eexists. reflexivity.
Qed.

Lemma has_padding_no l : padding_typed l -> has_padding l = false -> Forall (fun o => ~ is_padding o) l.
Proof.
  intros T H. apply Forall_forall. intros o I [d ->]. unfold has_padding in H.
  assert (existsb (fun o => N.eqb (opt_code o) 12) l = true) by (apply existsb_exists; eexists; split; [exact I|reflexivity]). congruence.
Qed.

Lemma prepare_spec l r : prepare_padding l = Some r ->
  filter other r = filter other l /\ has_padding r = true /\ Forall (fun o => is_padding o -> o = PADDING []) r /\ padding_typed r.
Proof.
  unfold prepare_padding. destruct (clear_padding l) as [c|] eqn:E; [|discriminate]. pose proof (clear_untyped _ _ E) as T.
  destruct (clear_typed _ T) as (c' & E' & F & P & A & T'). rewrite E in E'. injection E' as <-.
  intros [= <-]. destruct (has_padding l) eqn:H.
  - repeat split; try assumption.
  - rewrite filter_app, has_padding_app. cbn [filter other]. rewrite app_nil_r. repeat split; try assumption.
    + rewrite P. reflexivity.
    + apply Forall_app. split; [exact A|]. constructor; [reflexivity|constructor].
    + apply Forall_app. split; [exact T'|]. constructor; [intros _; eexists; reflexivity|constructor].
Qed.

Lemma prepare_typed l : padding_typed l <-> exists r, prepare_padding l = Some r.
Proof.
  unfold prepare_padding. split.
  - intros T. destruct (clear_typed _ T) as (c & -> & _). eexists. reflexivity.
  - intros [r H]. destruct (clear_padding l) eqn:E; [|discriminate]. eapply clear_untyped, E.
Qed.

Lemma fill_spec data l : has_padding l = true -> padding_typed l -> Forall (fun o => is_padding o -> o = PADDING []) l ->
  exists pre post, l = pre ++ PADDING [] :: post /\ fill_padding data l = pre ++ PADDING data :: post /\ Forall (fun o => ~ is_padding o) post.
Proof.
  induction l as [|o l IH]; [discriminate|]. intros H T A. inversion T as [|? ? To Tl]; inversion A as [|? ? Ao Al]; subst.
  cbn [fill_padding]. destruct (has_padding l) eqn:P.
  - destruct (IH eq_refl Tl Al) as (pre & post & -> & F & N). exists (o :: pre), post. rewrite F. repeat split. exact N.
  - cbn [has_padding existsb] in H. unfold has_padding in P. rewrite P, orb_false_r in H. apply N.eqb_eq in H.
    pose proof (To H) as Io. rewrite (Ao Io). exists [], l. repeat split. apply has_padding_no; assumption.
Qed.

Lemma repadded_fill n l r : prepare_padding l = Some r -> repadded n l (fill_padding (repeat 0 (N.to_nat n)) r).
Proof.
  intros H. destruct (prepare_spec _ _ H) as (F & P & A & T).
  destruct (fill_spec (repeat 0 (N.to_nat n)) r P T A) as (pre & post & Er & Ef & N). subst r. rewrite Ef. split.
  - rewrite <- F, !filter_app. reflexivity.
  - exists pre, post. split; [reflexivity|]. split; [|exact N]. apply Forall_app in A. destruct A as [A1 A2]. inversion A2; subst.
    apply Forall_app. split; assumption.
Qed.

Section Len.
Variable base : msg -> N.
Variable optlen : edns0 -> N.
Hypothesis optlen_padding : forall d, optlen (PADDING d) = 4 + N.of_nat (length d).
Notation msg_len := (msg_len base optlen).
Notation sumlen := (sumlen optlen).

Lemma sumlen_cons o l : sumlen (o :: l) = optlen o + sumlen l. Proof. reflexivity. Qed.
Lemma sumlen_app a b : sumlen (a ++ b) = sumlen a + sumlen b.
Proof. induction a as [|o a IH]; [reflexivity|]. cbn [app]. rewrite !sumlen_cons, IH. lia. Qed.

Lemma sumlen_fill n r : has_padding r = true -> padding_typed r -> Forall (fun o => is_padding o -> o = PADDING []) r ->
  sumlen (fill_padding (repeat 0 (N.to_nat n)) r) = sumlen r + n.
Proof.
  intros P T A. destruct (fill_spec (repeat 0 (N.to_nat n)) r P T A) as (pre & post & Er & Ef & _).
  rewrite Ef, Er, !sumlen_app, !sumlen_cons, !optlen_padding, repeat_length. cbn [length]. lia.
Qed.

Lemma msg_len_with m pre r post opts : has_opt m pre r post ->
  msg_len (update_edns0 (opt_set_options opts) m) = base (update_edns0 (opt_set_options []) m) + sumlen opts.
Proof.
  intros H. unfold msg_len. rewrite update_update by (intros; assumption). f_equal.
  unfold edns0_options. assert (T : rr_type (opt_set_options opts r) = 41) by (apply H).
  destruct (has_opt_is _ _ _ _ (update_with m pre r post (opt_set_options opts) H T)) as [-> _]. reflexivity.
Qed.

(** The padding of a message with an EDNS0 record *)
Lemma pad_len m pre r post opts n : has_opt m pre r post -> prepare_padding (opt_options r) = Some opts ->
  let m1 := update_edns0 (opt_set_options opts) m in
  let m2 := update_edns0 (opt_set_options (fill_padding (repeat 0 (N.to_nat n)) opts)) m1 in
  msg_len m2 = msg_len m1 + n /\ m2 = update_edns0 (opt_set_options (fill_padding (repeat 0 (N.to_nat n)) opts)) m.
Proof.
  intros H P m1 m2. assert (E : m2 = update_edns0 (opt_set_options (fill_padding (repeat 0 (N.to_nat n)) opts)) m).
  { subst m2 m1. rewrite update_update by (intros; assumption). reflexivity. }
  split; [|exact E]. rewrite E. subst m1. rewrite !(msg_len_with m pre r post) by exact H.
  destruct (prepare_spec _ _ P) as (_ & P1 & A & T). rewrite sumlen_fill by assumption. lia.
Qed.

Lemma wf_opt m pre r post : opt_wf m -> has_opt m pre r post -> exists o, rr_data r = DOPT o /\ opt_options r = o.
Proof.
  intros W (E & T & _). unfold opt_wf in W. rewrite E in W. apply Forall_app in W. destruct W as [_ W]. inversion W as [|? ? Wr _]; subst.
  destruct (Wr T) as [o D]. exists o. split; [exact D|]. unfold opt_options. rewrite D. reflexivity.
Qed.

Lemma edit_of m pre r post (P : list edns0 -> list edns0 -> Prop) opts' : opt_wf m -> has_opt m pre r post -> P (opt_options r) opts' ->
  opt_edit P m (update_edns0 (opt_set_options opts') m).
Proof.
  intros W H HP. destruct (wf_opt _ _ _ _ W H) as (o & D & E). rewrite E in HP.
  destruct (has_opt_is _ _ _ _ H) as [_ U]. rewrite U. destruct H as (Ex & T & F).
  exists pre, r, post, o, opts'. repeat (split; [assumption|]). reflexivity.
Qed.

Theorem pad_query q q' : opt_wf q -> padQuery base optlen q = Some q' ->
  (no_edns0 q -> q' = q) /\
  (~ no_edns0 q -> msg_len q' mod 128 = 0 /\ exists n, 0 < n <= 128 /\ opt_edit (repadded n) q q').
Proof.
  intros W E. unfold padQuery in E. destruct (is_edns0_cases q) as [[N E0]|(pre & r & post & H & E0 & U)].
  - rewrite E0 in E. injection E as <-. split; [reflexivity|contradiction].
  - rewrite E0 in E. unfold edns0_options in E. rewrite E0 in E.
    split. { intros N. unfold no_edns0 in N. destruct H as (Ex & T & _). rewrite Ex in N. apply Forall_app in N. destruct N as [_ N]. inversion N. contradiction. }
    intros _. destruct (prepare_padding (opt_options r)) as [opts|] eqn:P; [|discriminate]. unfold QueryPaddingBlockSize in E.
    set (L := msg_len (update_edns0 (opt_set_options opts) q)) in *. set (n := 128 - L mod 128) in *.
    destruct (n <=? 128) eqn:B; [|discriminate]. injection E as <-.
    destruct (pad_len q pre r post opts n H P) as [El Em]. cbv zeta in El, Em. fold L in El.
    split; [rewrite El; subst n; pose proof (N.div_mod' L 128); pose proof (N.mod_lt L 128); 
            replace (L + (128 - L mod 128)) with (0 + (L / 128 + 1) * 128) by lia; apply N.mod_add; lia|].
    exists n. pose proof (N.mod_lt L 128). split; [subst n; lia|]. rewrite Em.
    eapply edit_of; [exact W|exact H|]. apply repadded_fill, P.
Qed.

Lemma pad_query_total q : opt_wf q -> (padQuery base optlen q = None <->
  exists pre r post opts, m_extra q = pre ++ r :: post /\ rr_type r = 41 /\ Forall (fun x => rr_type x <> 41) post /\ rr_data r = DOPT opts /\ ~ padding_typed opts).
Proof.
  intros W. unfold padQuery. destruct (is_edns0_cases q) as [[N E0]|(pre & r & post & H & E0 & U)].
  - rewrite E0. split; [discriminate|]. intros (pre & r & post & opts & Ex & T & F & _). unfold no_edns0 in N. rewrite Ex in N.
    apply Forall_app in N. destruct N as [_ N]. inversion N. contradiction.
  - rewrite E0. unfold edns0_options. rewrite E0. destruct (wf_opt _ _ _ _ W H) as (o & D & Eo). rewrite Eo.
    destruct (prepare_padding o) as [opts|] eqn:P.
    + unfold QueryPaddingBlockSize. set (n := 128 - _). assert (B : (n <=? 128) = true) by (apply N.leb_le; subst n; lia). rewrite B.
      split; [discriminate|]. intros (pre' & r' & post' & opts' & Ex & T & F & D' & NT). exfalso.
      destruct (split_unique _ _ _ _ _ _ _ H (conj Ex (conj T F))) as (_ & <- & _). rewrite D in D'. injection D' as <-.
      apply NT, prepare_typed. eexists. exact P.
    + split; [|reflexivity]. intros _. destruct H as (Ex & T & F). exists pre, r, post, o. repeat (split; [assumption|]).
      intros NT. apply prepare_typed in NT. destruct NT. congruence.
Qed.

Lemma target_eq udp L : L + (if udp <? L + (468 - L mod 468) then N.max (udp - L) 0 else 468 - L mod 468) = target udp L /\
  (if udp <? L + (468 - L mod 468) then N.max (udp - L) 0 else 468 - L mod 468) <= 468.
Proof.
  pose proof (N.div_mod' L 468) as D. pose proof (N.mod_lt L 468 ltac:(discriminate)) as M.
  unfold target. cbv zeta. generalize dependent (L / 468). generalize dependent (L mod 468). intros m M d D.
  destruct (N.ltb_spec udp (L + (468 - m))); destruct (N.leb_spec (468 * (d + 1)) udp); lia.
Qed.

Theorem pad_answer q a a' : opt_wf q -> opt_wf a -> padAnswer base optlen q a = Some a' ->
  (no_edns0 q -> a' = a) /\
  (forall pre o post, m_extra q = pre ++ o :: post -> rr_type o = 41 -> Forall (fun x => rr_type x <> 41) post ->
   exists n, n <= 468 /\ n <= msg_len a' /\ msg_len a' = target (rr_class o) (msg_len a' - n) /\
     (opt_edit (repadded n) a a' \/
      exists opts, repadded n [] opts /\ opt_new (rr_class o) (if N.testbit (rr_ttl o) 15 then 2^15 else 0) opts a a')).
Proof.
  intros Wq Wa E. unfold padAnswer in E. destruct (is_edns0_cases q) as [[N E0]|(pre & r & post & H & E0 & U)].
  - rewrite E0 in E. injection E as <-. split; [reflexivity|]. intros pre o post Ex T F. unfold no_edns0 in N. rewrite Ex in N.
    apply Forall_app in N. destruct N as [_ N]. inversion N. contradiction.
  - rewrite E0 in E. split.
    { intros N. unfold no_edns0 in N. destruct H as (Ex & T & _). rewrite Ex in N. apply Forall_app in N. destruct N as [_ N]. inversion N. contradiction. }
    intros pre' o post' Ex' T' F'. destruct (split_unique _ _ _ _ _ _ _ H (conj Ex' (conj T' F'))) as (_ & <- & _). clear Ex' T' F' pre' post'.
    set (a1 := match is_edns0 a with Some _ => a | None => set_edns0 (opt_udpsize r) (opt_do r) a end) in *.
    assert (H1 : exists pre1 r1 post1, has_opt a1 pre1 r1 post1 /\ opt_wf a1 /\
              ((no_edns0 a /\ a1 = set_edns0 (opt_udpsize r) (opt_do r) a /\ r1 = new_opt (opt_udpsize r) (opt_do r) [] /\ pre1 = m_extra a /\ post1 = []) \/ (a1 = a))).
    { subst a1. destruct (is_edns0_cases a) as [[Na Ea]|(pa & ra & qa & Ha & Ea & _)]; rewrite Ea.
      - exists (m_extra a), (new_opt (opt_udpsize r) (opt_do r) []), []. split; [apply set_edns0_has, Na|]. split.
        + unfold opt_wf, set_edns0. cbn [m_extra set_extra]. apply Forall_app. split; [exact Wa|]. constructor; [intros _; eexists; reflexivity|constructor].
        + left. repeat split; try reflexivity. exact Na.
      - exists pa, ra, qa. split; [exact Ha|]. split; [exact Wa|]. right. reflexivity. }
    destruct H1 as (pre1 & r1 & post1 & H1 & W1 & Hor).
    destruct (has_opt_is _ _ _ _ H1) as [E1 U1].
    unfold edns0_options in E. rewrite E1 in E.
    destruct (prepare_padding (opt_options r1)) as [opts|] eqn:P; [|discriminate]. unfold ResponsePaddingBlockSize in E. cbv zeta in E.
    set (L := msg_len (update_edns0 (opt_set_options opts) a1)) in *. unfold opt_udpsize in E.
    destruct (target_eq (rr_class r) L) as [Et Lt].
    set (n := if rr_class r <? L + (468 - L mod 468) then N.max (rr_class r - L) 0 else 468 - L mod 468) in *.
    destruct (n <=? 468) eqn:B; [|discriminate]. injection E as <-.
    destruct (pad_len a1 pre1 r1 post1 opts n H1 P) as [El Em]. cbv zeta in El, Em. fold L in El.
    exists n. split; [exact Lt|]. rewrite El. split; [lia|]. split; [rewrite N.add_sub; symmetry; rewrite <- Et; reflexivity|].
    rewrite Em. pose proof (repadded_fill n _ _ P) as R.
    destruct Hor as [(Na & Ea & Er & -> & ->)|Ea].
    + right. exists (fill_padding (repeat 0 (N.to_nat n)) opts). rewrite Er in R. split; [exact R|]. split; [exact Na|].
      rewrite U1, Ea, Er. unfold set_edns0. rewrite set_extra_extra. reflexivity.
    + left. rewrite Ea in *. eapply edit_of; [exact W1|exact H1|exact R].
Qed.

Lemma pad_answer_total q a : opt_wf q -> opt_wf a -> padAnswer base optlen q a = None ->
  exists pre r post opts, m_extra a = pre ++ r :: post /\ rr_type r = 41 /\ Forall (fun x => rr_type x <> 41) post /\ rr_data r = DOPT opts /\ ~ padding_typed opts.
Proof.
  intros Wq Wa E. unfold padAnswer in E. destruct (is_edns0_cases q) as [[N E0]|(pre & r & post & H & E0 & U)]; rewrite E0 in E; [discriminate|].
  destruct (is_edns0_cases a) as [[Na Ea]|(pa & ra & qa & Ha & Ea & _)]; rewrite Ea in E.
  - exfalso. unfold edns0_options in E. destruct (has_opt_is _ _ _ _ (set_edns0_has a (opt_udpsize r) (opt_do r) Na)) as [E1 _]. rewrite E1 in E.
    cbv zeta in E. cbn [opt_options new_opt rr_data] in E. change (prepare_padding []) with (Some [PADDING []]) in E. cbv iota beta in E.
    unfold ResponsePaddingBlockSize, opt_udpsize in E. set (L := msg_len _) in E.
    pose proof (proj2 (target_eq (rr_class r) L)) as B. apply N.leb_le in B. rewrite B in E. discriminate.
  - unfold edns0_options in E. rewrite Ea in E. destruct (wf_opt _ _ _ _ Wa Ha) as (o & D & Eo). rewrite Eo in E.
    destruct (prepare_padding o) as [opts|] eqn:P.
    + exfalso. cbv zeta in E. unfold opt_udpsize, ResponsePaddingBlockSize in E. set (L := msg_len _) in E.
      pose proof (proj2 (target_eq (rr_class r) L)) as B. apply N.leb_le in B. rewrite B in E. discriminate.
    + destruct Ha as (Ex & T & F). exists pa, ra, qa, o. repeat (split; [assumption|]). intros NT. apply prepare_typed in NT. destruct NT. congruence.
Qed.
End Len.

Theorem strip_padding m : opt_wf m ->
  (no_edns0 m -> stripPadding m = m) /\
  (~ no_edns0 m -> opt_edit (without (fun o => opt_code o = 12)) m (stripPadding m)).
Proof.
  intros W. unfold stripPadding. destruct (is_edns0_cases m) as [[N E0]|(pre & r & post & H & E0 & U)]; rewrite E0.
  - split; [reflexivity|contradiction].
  - split. { intros N. unfold no_edns0 in N. destruct H as (Ex & T & _). rewrite Ex in N. apply Forall_app in N. destruct N as [_ N]. inversion N. contradiction. }
    intros _. eapply edit_of; [exact W|exact H|]. induction (opt_options r) as [|o l IH]; cbn [filter]; [constructor|].
    destruct (N.eqb_spec (opt_code o) 12); cbn [negb]; constructor; assumption.
Qed.
