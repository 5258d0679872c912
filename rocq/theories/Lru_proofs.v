From Verif Require Import Base Lru_model Lru_spec.
From Coq Require Import ZifyBool ZifyNat ZifyN.
Open Scope nat_scope.

Lemma Forall2_length {X Y} (P : X -> Y -> Prop) l s : Forall2 P l s -> length l = length s.
Proof. induction 1; cbn; congruence. Qed.

(** ** Doubly linked segments *)
Fixpoint linked (nx pv : ptr_t -> ptr_t) (l : list ptr_t) : Prop :=
  match l with
  | a :: t => match t with b :: _ => nx a = b /\ pv b = a /\ linked nx pv t | [] => True end
  | [] => True
  end.

Lemma linked_cons2 nx pv a b l : linked nx pv (a :: b :: l) <-> nx a = b /\ pv b = a /\ linked nx pv (b :: l).
Proof. reflexivity. Qed.

Lemma linked_app nx pv xs a ys :
  linked nx pv (xs ++ a :: ys) <-> linked nx pv (xs ++ [a]) /\ linked nx pv (a :: ys).
Proof.
  induction xs as [|x xs IH].
  - cbn [app]. split; [intros H; split; [exact I|exact H]|tauto].
  - destruct xs as [|x' xs].
    + cbn [app] in *. rewrite !linked_cons2. cbn [linked]. tauto.
    + cbn [app] in *. rewrite !linked_cons2. tauto.
Qed.

Lemma linked_ext nx pv nx' pv' l :
  (forall a, In a (removelast l) -> nx' a = nx a) ->
  (forall b, In b (tl l) -> pv' b = pv b) ->
  linked nx pv l -> linked nx' pv' l.
Proof.
  induction l as [|a l IH]; [tauto|]. destruct l as [|b l]; [tauto|].
  intros H1 H2. rewrite !linked_cons2. intros (E1 & E2 & E3).
  repeat split.
  - rewrite H1; [exact E1|left; reflexivity].
  - rewrite H2; [exact E2|left; reflexivity].
  - apply IH; [|intros c Hc; apply H2; right; exact Hc|exact E3].
    intros c Hc. apply H1. cbn [removelast]. right. exact Hc.
Qed.

Lemma upd_same {A} f a (v : A) : upd f a v a = v.
Proof. unfold upd. rewrite Nat.eqb_refl. reflexivity. Qed.
Lemma upd_other {A} f a (v : A) x : x <> a -> upd f a v x = f x.
Proof. unfold upd. intros H. apply Nat.eqb_neq in H. rewrite H. reflexivity. Qed.

Lemma exists_last' {A} (l : list A) : l <> [] -> exists l' a, l = l' ++ [a].
Proof. intros H. destruct (exists_last H) as (l' & a & E). eauto. Qed.

(** Taking [i] out of the middle of a segment. *)
Lemma splice_linked nx pv h xs i ys t :
  NoDup (h :: xs ++ i :: ys ++ [t]) ->
  linked nx pv (h :: xs ++ i :: ys ++ [t]) ->
  let nx1 := upd nx (pv i) (nx i) in
  let pv1 := upd pv (nx1 i) (pv i) in
  linked nx1 pv1 (h :: xs ++ ys ++ [t]) /\ (nx1 i = nx i) /\ pv1 i = pv i
  /\ In (nx i) (ys ++ [t]) /\ In (pv i) (h :: xs).
Proof.
  intros ND L.
  destruct (exists_last' (h :: xs)) as (xs' & x & Ex); [discriminate|].
  assert (exists y ys', ys ++ [t] = y :: ys') as (y & ys' & Ey) by (destruct ys; cbn; eauto).
  rewrite (app_comm_cons xs (i :: ys ++ [t]) h) in ND, L. rewrite Ex, Ey in ND, L.
  rewrite <- app_assoc in ND, L. cbn [app] in ND, L.
  apply linked_app in L. destruct L as [L1 L2].
  rewrite !linked_cons2 in L2. destruct L2 as (E1 & E2 & E3 & E4 & L2).
  assert (NDx : ~ In x xs' /\ ~ In i xs' /\ ~ In y xs' /\ x <> i /\ x <> y /\ i <> y /\ ~ In x ys' /\ ~ In i ys' /\ ~ In y ys').
  { pose proof ND as ND2.
    apply NoDup_remove in ND. destruct ND as [ND Hx].
    apply NoDup_remove in ND. destruct ND as [ND Hi].
    apply NoDup_remove in ND. destruct ND as [ND Hy].
    rewrite !in_app_iff in *. cbn [In] in *.
    intuition congruence. }
  destruct NDx as (N1 & N2 & N3 & N4 & N5 & N6 & N7 & N8 & N9).
  assert (Ei : upd nx (pv i) (nx i) i = nx i) by (apply upd_other; congruence).
  cbn zeta. rewrite !Ei, E3, E2, Ey, Ex.
  rewrite (app_comm_cons xs (y :: ys') h), Ex, <- app_assoc. cbn [app].
  repeat split.
  - apply linked_app. split.
    + eapply linked_ext; [| |exact L1].
      * rewrite removelast_last. intros a Ha. apply upd_other. congruence.
      * intros b Hb. apply upd_other. intros ->.
        destruct xs' as [|z xs']; cbn in Hb; [destruct Hb|].
        rewrite in_app_iff in Hb. cbn in Hb, N3, N5. intuition congruence.
    + rewrite linked_cons2. repeat split; [apply upd_same|apply upd_same|].
      eapply linked_ext; [| |exact L2].
      * intros a Ha. apply upd_other. intros ->.
        assert (In x (y :: ys')).
        { clear - Ha. revert Ha. generalize (y :: ys'). intros l. induction l as [|z l IH]; [tauto|].
          destruct l; [intros []|]. cbn [removelast]. intros [->|H]; [left; reflexivity|right; auto]. }
        cbn in H. intuition congruence.
      * intros b Hb. apply upd_other. cbn in Hb. congruence.
  - rewrite upd_other by congruence. exact E2.
  - left. reflexivity.
  - apply in_or_app. right. left. reflexivity.
Qed.

(** Putting [i] right behind the first element. *)
Lemma front_linked nx pv h i ys t :
  NoDup (h :: ys ++ [t]) -> ~ In i (h :: ys ++ [t]) ->
  linked nx pv (h :: ys ++ [t]) ->
  let nx1 := upd nx i (nx h) in
  let pv1 := upd pv i h in
  let pv2 := upd pv1 (nx1 h) i in
  let nx2 := upd nx1 h i in
  linked nx2 pv2 (h :: i :: ys ++ [t]).
Proof.
  intros ND Hi L.
  assert (exists y ys', ys ++ [t] = y :: ys') as (y & ys' & Ey) by (destruct ys; cbn; eauto).
  rewrite Ey in *. rewrite linked_cons2 in L. destruct L as (E1 & E2 & L).
  cbn zeta. inversion ND as [|? ? Hh ND1]; subst. inversion ND1 as [|? ? Hy ND2]; subst.
  cbn [In] in *.
  assert (E : upd nx i (nx h) h = nx h) by (apply upd_other; intuition congruence).
  rewrite E. rewrite !linked_cons2. repeat split.
  - apply upd_same.
  - rewrite upd_other by intuition congruence. apply upd_same.
  - rewrite upd_other by intuition congruence. apply upd_same.
  - apply upd_same.
  - eapply linked_ext; [| |exact L].
    + intros a Ha.
      assert (In a (nx h :: ys')).
      { clear - Ha. revert Ha. generalize (nx h :: ys'). intros l. induction l as [|z l IH]; [tauto|].
        destruct l; [intros []|]. cbn [removelast]. intros [->|H]; [left; reflexivity|right; auto]. }
      cbn in H. rewrite !upd_other; intuition congruence.
    + cbn [tl]. intros b Hb. rewrite !upd_other; intuition congruence.
Qed.

Section Rep.
Variables (K B : Type).
Variable matches : B -> K -> bool.
Variable hash : K -> N.
Variable K_eq : forall a b : K, {a = b} + {a <> b}.

Notation lru := (lru B).
Notation entry := (K * B)%type.

Definition good (k : K) (b : B) : Prop := forall k', matches b k' = true <-> k' = k.

(** Concrete item [i] holds abstract entry [e]. *)
Definition holds (c : lru) (i : ptr_t) (e : entry) : Prop :=
  blob _ c i = snd e /\ ihash _ c i = hash (fst e) /\ good (fst e) (snd e).

(** The list structure, for the addresses [ids]. *)
Record shape (c : lru) (ids : list ptr_t) : Prop := {
  sh_nodup : NoDup (head _ c :: ids ++ [tail _ c]);
  sh_linked : linked (next _ c) (prev _ c) (head _ c :: ids ++ [tail _ c]);
  sh_fresh : forall x, In x (head _ c :: ids ++ [tail _ c]) -> x < fresh _ c }.

Record Rep (c : lru) (s : list entry) : Prop := {
  rep_ids : exists ids, shape c ids /\ Forall2 (holds c) ids s
      /\ Permutation (items _ c) (map (fun i => (ihash _ c i, i)) ids);
  rep_hash : NoDup (map (fun e => hash (fst e)) s) }.

(** Specification with hashes: adding a key displaces the entry with the same hash. *)
Definition hdrop (h : N) (s : list entry) := filter (fun e => negb (N.eqb h (hash (fst e)))) s.
Definition hstep (cap : Z) (s : list entry) (o : op K B) : list entry * option B :=
  match o with
  | Add _ _ k b => (cut K B cap ((k, b) :: hdrop (hash k) s), None)
  | Get _ _ k => match lookup K B K_eq k s with
                 | Some b => ((k, b) :: drop K B K_eq k s, Some b)
                 | None => (s, None)
                 end
  | Del _ _ k => (drop K B K_eq k s, None)
  | DelFunc _ _ f => (filter (fun e => negb (f (snd e))) s, None)
  | Reset _ _ => ([], None)
  end.

Lemma map_get_in h i (m : list (N * ptr_t)) :
  NoDup (map fst m) -> In (h, i) m -> map_get h m = Some i.
Proof.
  induction m as [|[h' j] m IH]; cbn [map fst In map_get]; [tauto|].
  intros ND [E|H]; inversion ND; subst.
  - inversion E; subst. rewrite N.eqb_refl. reflexivity.
  - destruct (N.eqb_spec h h'); [|auto]. subst. exfalso. apply H2.
    change h' with (fst (h', i)). apply in_map. exact H.
Qed.
Lemma map_get_some h i (m : list (N * ptr_t)) : map_get h m = Some i -> In (h, i) m.
Proof.
  induction m as [|[h' j] m IH]; cbn [map_get In]; [discriminate|].
  destruct (N.eqb_spec h h'); [intros E; left; congruence|auto].
Qed.

Lemma Forall2_split_l {X Y} (P : X -> Y -> Prop) l1 x l2 s :
  Forall2 P (l1 ++ x :: l2) s -> exists s1 y s2, s = s1 ++ y :: s2 /\ Forall2 P l1 s1 /\ P x y /\ Forall2 P l2 s2.
Proof.
  intros H. apply Forall2_app_inv_l in H. destruct H as (s1 & s2 & H1 & H2 & ->).
  inversion H2; subst. eauto 10.
Qed.
Lemma Forall2_split_r {X Y} (P : X -> Y -> Prop) l s1 y s2 :
  Forall2 P l (s1 ++ y :: s2) -> exists l1 x l2, l = l1 ++ x :: l2 /\ Forall2 P l1 s1 /\ P x y /\ Forall2 P l2 s2.
Proof.
  intros H. apply Forall2_app_inv_r in H. destruct H as (l1 & l2 & H1 & H2 & ->).
  inversion H2; subst. eauto 10.
Qed.

Lemma holds_hashes c ids s : Forall2 (holds c) ids s -> map (ihash _ c) ids = map (fun e => hash (fst e)) s.
Proof. induction 1 as [|i e ids s (H1 & H2 & H3) _ IH]; cbn [map]; congruence. Qed.

Lemma rep_length c s : Rep c s -> length (items _ c) = length s.
Proof.
  intros [(ids & _ & F & P) _]. rewrite (Permutation_length P), map_length. exact (Forall2_length _ _ _ F).
Qed.

Lemma items_nodup c ids s : Forall2 (holds c) ids s -> NoDup (map (fun e => hash (fst e)) s) ->
  Permutation (items _ c) (map (fun i => (ihash _ c i, i)) ids) -> NoDup (map fst (items _ c)).
Proof.
  intros F ND P. apply (Permutation_NoDup (l := map fst (map (fun i => (ihash _ c i, i)) ids))).
  - apply Permutation_map, Permutation_sym, P.
  - rewrite map_map. cbn [fst]. change (fun x => ihash B c x) with (ihash B c). rewrite (holds_hashes _ _ _ F). exact ND.
Qed.

(** The index finds the item whose entry has the hash. *)
Lemma index_some c s ids h i :
  Rep c s -> shape c ids -> Forall2 (holds c) ids s ->
  Permutation (items _ c) (map (fun i => (ihash _ c i, i)) ids) ->
  map_get h (items _ c) = Some i ->
  exists ids1 ids2 s1 e s2, ids = ids1 ++ i :: ids2 /\ s = s1 ++ e :: s2 /\
    Forall2 (holds c) ids1 s1 /\ holds c i e /\ Forall2 (holds c) ids2 s2 /\ hash (fst e) = h.
Proof.
  intros R S F P G. apply map_get_some in G. apply (Permutation_in _ P) in G.
  apply in_map_iff in G. destruct G as (j & E & Hj). inversion E; subst.
  apply in_split in Hj. destruct Hj as (l1 & l2 & ->).
  apply Forall2_split_l in F. destruct F as (s1 & e & s2 & -> & F1 & H & F2).
  exists l1, l2, s1, e, s2. repeat split; auto; try apply H. destruct H as (_ & H & _). congruence.
Qed.
Lemma index_none c s ids h :
  Rep c s -> shape c ids -> Forall2 (holds c) ids s ->
  Permutation (items _ c) (map (fun i => (ihash _ c i, i)) ids) ->
  map_get h (items _ c) = None -> forall e, In e s -> hash (fst e) <> h.
Proof.
  intros R S F P G e He Hh. apply in_split in He. destruct He as (s1 & s2 & ->).
  apply Forall2_split_r in F as F'. destruct F' as (l1 & i & l2 & -> & F1 & H & F2).
  assert (map_get h (items _ c) = Some i); [|congruence].
  apply map_get_in.
  - eapply items_nodup; [exact F|apply R|exact P].
  - apply (Permutation_in _ (Permutation_sym P)). apply in_map_iff. exists i. split.
    + destruct H as (_ & H & _). congruence.
    + apply in_or_app. right. left. reflexivity.
Qed.

Lemma filter_all {X} (f : X -> bool) l : (forall x, In x l -> f x = true) -> filter f l = l.
Proof. induction l as [|a l IH]; cbn [filter]; intros H; [reflexivity|]. rewrite H by (left; reflexivity). f_equal. apply IH. intros; apply H; right; assumption. Qed.

Lemma hdrop_split h (s1 : list entry) e s2 :
  NoDup (map (fun e => hash (fst e)) (s1 ++ e :: s2)) -> hash (fst e) = h -> hdrop h (s1 ++ e :: s2) = s1 ++ s2.
Proof.
  intros ND E. unfold hdrop. rewrite filter_app. cbn [filter]. rewrite E, N.eqb_refl. cbn [negb].
  rewrite map_app in ND. cbn [map] in ND. apply NoDup_remove_2 in ND. rewrite E in ND.
  rewrite !filter_all; [reflexivity| |];
    intros x Hx; destruct (N.eqb_spec h (hash (fst x))) as [E'|]; try reflexivity; exfalso; apply ND;
    apply in_or_app; [right|left]; rewrite E'; apply (in_map (fun e => hash (fst e))); exact Hx.
Qed.
Lemma hdrop_none h s : (forall e, In e s -> hash (fst e) <> h) -> hdrop h s = s.
Proof. intros H. apply filter_all. intros x Hx. destruct (N.eqb_spec h (hash (fst x))); [|reflexivity]. exfalso. eapply H; eauto. Qed.

Lemma keqb_refl k : keqb K K_eq k k = true.
Proof. unfold keqb. destruct (K_eq k k); congruence. Qed.
Lemma keqb_true k k' : keqb K K_eq k k' = true <-> k = k'.
Proof. unfold keqb. destruct (K_eq k k'); split; congruence. Qed.

Lemma drop_split k (s1 : list entry) e s2 :
  NoDup (map (fun e => hash (fst e)) (s1 ++ e :: s2)) -> fst e = k -> drop K B K_eq k (s1 ++ e :: s2) = s1 ++ s2.
Proof.
  intros ND E. unfold drop. rewrite filter_app. cbn [filter]. rewrite E, keqb_refl. cbn [negb].
  rewrite map_app in ND. cbn [map] in ND. apply NoDup_remove_2 in ND. rewrite E in ND.
  rewrite !filter_all; [reflexivity| |];
    intros x Hx; destruct (keqb K K_eq k (fst x)) eqn:E'; try reflexivity; exfalso; apply ND;
    apply keqb_true in E'; apply in_or_app; [right|left]; rewrite E';
    apply (in_map (fun e => hash (fst e))); exact Hx.
Qed.
Lemma drop_none k s : (forall e, In e s -> fst e <> k) -> drop K B K_eq k s = s.
Proof.
  intros H. apply filter_all. intros x Hx. destruct (keqb K K_eq k (fst x)) eqn:E; [|reflexivity].
  apply keqb_true in E. exfalso. eapply H; eauto.
Qed.
Lemma lookup_split k s1 e s2 :
  (forall e, In e s1 -> fst e <> k) -> fst e = k -> lookup K B K_eq k (s1 ++ e :: s2) = Some (snd e).
Proof.
  intros H E. unfold lookup. induction s1 as [|a s1 IH]; cbn [app List.find].
  - rewrite E, keqb_refl. reflexivity.
  - destruct (keqb K K_eq k (fst a)) eqn:E'.
    + apply keqb_true in E'. exfalso. apply (H a); [left; reflexivity|congruence].
    + apply IH. intros; apply H; right; assumption.
Qed.
Lemma lookup_none k s : (forall e, In e s -> fst e <> k) -> lookup K B K_eq k s = None.
Proof.
  intros H. unfold lookup. induction s as [|a s IH]; cbn [List.find]; [reflexivity|].
  destruct (keqb K K_eq k (fst a)) eqn:E'.
  - apply keqb_true in E'. exfalso. apply (H a); [left; reflexivity|congruence].
  - apply IH. intros; apply H; right; assumption.
Qed.

Lemma nodup_hash_key (s1 : list entry) e s2 :
  NoDup (map (fun e => hash (fst e)) (s1 ++ e :: s2)) -> forall x, In x s1 \/ In x s2 -> hash (fst x) <> hash (fst e).
Proof.
  intros ND x Hx E. rewrite map_app in ND. cbn [map] in ND. apply NoDup_remove_2 in ND. apply ND.
  rewrite <- E. apply in_or_app. destruct Hx; [left|right]; apply (in_map (fun e => hash (fst e))); assumption.
Qed.

(** What [find] returns, against the abstract list. *)
Lemma find_spec c s ids k :
  Rep c s -> shape c ids -> Forall2 (holds c) ids s ->
  Permutation (items _ c) (map (fun i => (ihash _ c i, i)) ids) ->
  match Lru_model.find K B matches (hash k) k c with
  | Some i => exists ids1 ids2 s1 b s2, ids = ids1 ++ i :: ids2 /\ s = s1 ++ (k, b) :: s2 /\
      Forall2 (holds c) ids1 s1 /\ holds c i (k, b) /\ Forall2 (holds c) ids2 s2
  | None => forall e, In e s -> fst e <> k
  end.
Proof.
  intros R S F P. unfold Lru_model.find. destruct (map_get (hash k) (items _ c)) as [i|] eqn:G.
  - destruct (index_some _ _ _ _ _ R S F P G) as (ids1 & ids2 & s1 & e & s2 & -> & -> & F1 & H & F2 & Hh).
    destruct (matches (blob _ c i) k) eqn:M.
    + destruct H as (Hb & Hi & Hg). rewrite Hb in M. apply Hg in M. subst k.
      exists ids1, ids2, s1, (snd e), s2. destruct e as [k b]. repeat split; auto; apply Hg.
    + intros x Hx E. subst k. apply in_app_or in Hx. destruct Hx as [Hx|[<-|Hx]].
      * eapply nodup_hash_key; [apply R|left; exact Hx|congruence].
      * destruct H as (Hb & Hi & Hg). rewrite Hb in M. rewrite (proj2 (Hg _) eq_refl) in M. discriminate.
      * eapply nodup_hash_key; [apply R|right; exact Hx|congruence].
  - intros e He E. subst k. eapply index_none; eauto.
Qed.

Lemma holds_ext c c' ids s :
  (forall i, In i ids -> blob _ c' i = blob _ c i /\ ihash _ c' i = ihash _ c i) ->
  Forall2 (holds c) ids s -> Forall2 (holds c') ids s.
Proof.
  intros H F. induction F as [|i e ids s Hh F IH]; constructor.
  - destruct (H i) as [E1 E2]; [left; reflexivity|]. destruct Hh as (A & D & G). repeat split; try congruence; apply G.
  - apply IH. intros; apply H; right; assumption.
Qed.

Lemma perm_del (f : ptr_t -> N) ids1 i ids2 m :
  NoDup (map f (ids1 ++ i :: ids2)) ->
  Permutation m (map (fun i => (f i, i)) (ids1 ++ i :: ids2)) ->
  Permutation (map_del (f i) m) (map (fun i => (f i, i)) (ids1 ++ ids2)).
Proof.
  intros ND P. unfold map_del.
  assert (Q : forall l l' : list (N * ptr_t), Permutation l l' -> Permutation (filter (fun p => negb (N.eqb (f i) (fst p))) l) (filter (fun p => negb (N.eqb (f i) (fst p))) l')).
  { induction 1; cbn [filter]; repeat match goal with |- context[if ?b then _ else _] => destruct b end; eauto using Permutation. }
  rewrite (Q _ _ P). rewrite map_app, filter_app. cbn [map filter fst]. rewrite N.eqb_refl. cbn [negb].
  rewrite map_app in ND. cbn [map] in ND. apply NoDup_remove_2 in ND.
  rewrite map_app, !filter_all; [reflexivity| |];
   intros [h j] Hx; apply in_map_iff in Hx; destruct Hx as (j' & E & Hj); inversion E; subst; cbn [fst];
   destruct (N.eqb_spec (f i) (f j)) as [E'|]; try reflexivity; exfalso; apply ND; rewrite E';
   apply in_or_app; [right|left]; apply in_map; exact Hj.
Qed.

(** Unlinking a linked item. *)
Lemma unlink_rep c ids1 i ids2 s1 e s2 :
  shape c (ids1 ++ i :: ids2) -> Forall2 (holds c) ids1 s1 -> holds c i e -> Forall2 (holds c) ids2 s2 ->
  NoDup (map (fun e => hash (fst e)) (s1 ++ e :: s2)) ->
  Permutation (items _ c) (map (fun i => (ihash _ c i, i)) (ids1 ++ i :: ids2)) ->
  exists c', unlink B i c = Some c' /\ shape c' (ids1 ++ ids2) /\ Forall2 (holds c') (ids1 ++ ids2) (s1 ++ s2) /\
    Permutation (items _ c') (map (fun i => (ihash _ c' i, i)) (ids1 ++ ids2)) /\
    NoDup (map (fun e => hash (fst e)) (s1 ++ s2)) /\
    fresh _ c' = fresh _ c /\ maxItems _ c' = maxItems _ c /\ ihash _ c' = ihash _ c /\ blob _ c' = blob _ c
    /\ head _ c' = head _ c /\ tail _ c' = tail _ c /\
    length (items _ c) = S (length (items _ c')).
Proof.
  intros S F1 Hh F2 ND P. unfold unlink.
  pose proof (sh_nodup _ _ S) as SN. pose proof (sh_linked _ _ S) as SL.
  assert (Hi : In i (ids1 ++ i :: ids2)) by (apply in_or_app; right; left; reflexivity).
  assert (Hih : i <> head _ c).
  { intros ->. inversion SN as [|? ? G]; subst. apply G. apply in_or_app. left. exact Hi. }
  assert (Hit : i <> tail _ c).
  { intros ->. inversion SN as [|? ? _ G]; subst. apply NoDup_remove_2 in G. rewrite app_nil_r in G. contradiction. }
  apply Nat.eqb_neq in Hih as Hih'. apply Nat.eqb_neq in Hit as Hit'. rewrite Hih', Hit'. cbn [orb].
  eexists. split; [reflexivity|].
  rewrite <- app_assoc in SN, SL. cbn [app] in SN, SL.
  destruct (splice_linked _ _ _ _ _ _ _ SN SL) as (L & E1 & E2 & I1 & I2).
  cbn [set_items set_prev set_next items prev next ihash blob fresh maxItems head tail] in *.
  assert (Hshape : NoDup (map (ihash _ c) (ids1 ++ i :: ids2))).
  { assert (Fa : Forall2 (holds c) (ids1 ++ i :: ids2) (s1 ++ e :: s2)) by (apply Forall2_app; [assumption|constructor; assumption]).
    rewrite (holds_hashes _ _ _ Fa). exact ND. }
  pose proof (perm_del (ihash _ c) ids1 i ids2 _ Hshape P) as PD.
  assert (NoDup (map (fun e0 : entry => hash (fst e0)) (s1 ++ s2))) as ND'.
  { rewrite map_app in *. cbn [map] in ND. apply NoDup_remove_1 in ND. exact ND. }
  assert (Forall2 (holds c) (ids1 ++ ids2) (s1 ++ s2)) as Fa by (apply Forall2_app; assumption).
  repeat split; auto.
  - cbn [head tail]. rewrite <- app_assoc. rewrite app_comm_cons in *. apply NoDup_remove_1 in SN. exact SN.
  - cbn [head tail next prev]. rewrite <- app_assoc. exact L.
  - cbn [head tail fresh]. intros x Hx. apply (sh_fresh _ _ S). rewrite <- app_assoc in *. cbn [app].
    cbn [In] in *. rewrite !in_app_iff in *. cbn [In]. rewrite !in_app_iff. tauto.
  - rewrite (Permutation_length PD), (Permutation_length P), !map_length, !app_length. cbn [length]. lia.
Qed.

Lemma resize_rep n c s :
  Rep c s -> (0 < maxItems _ c)%Z -> length s <= Z.to_nat (maxItems _ c) + n ->
  exists c', resize_loop B n c = Some c' /\ Rep c' (firstn (Z.to_nat (maxItems _ c)) s) /\
     maxItems _ c' = maxItems _ c.
Proof.
  revert c s. induction n as [|n IH]; intros c s R Hm Hl.
  - unfold resize_loop. rewrite (rep_length _ _ R). destruct (Z.leb_spec (Z.of_nat (length s)) (maxItems _ c)); [|lia].
    exists c. rewrite firstn_all2 by lia. auto.
  - cbn [resize_loop]. rewrite (rep_length _ _ R). destruct (Z.leb_spec (Z.of_nat (length s)) (maxItems _ c)).
    { exists c. rewrite firstn_all2 by lia. auto. }
    destruct R as [(ids & S & F & P) ND].
    assert (s <> []) as Hs by (destruct s; cbn in *; [lia|discriminate]).
    destruct (exists_last' s Hs) as (s1 & e & ->).
    destruct (Forall2_split_r _ _ _ _ _ F) as (ids1 & i & ids2 & -> & F1 & H1 & F2).
    inversion F2; subst ids2.
    assert (Ep : prev _ c (tail _ c) = i).
    { pose proof (sh_linked _ _ S) as L. rewrite <- app_assoc in L. cbn [app] in L. rewrite app_comm_cons in L.
      apply linked_app in L. destruct L as [_ L]. rewrite linked_cons2 in L. apply L. }
    rewrite Ep.
    destruct (unlink_rep c ids1 i [] s1 e [] S F1 H1 F2 ND P) as (c' & -> & S' & F' & P' & ND' & E1 & E2 & E3 & E4 & E5 & E6 & E7).
    destruct (IH c' (s1 ++ [])) as (c'' & -> & R'' & E).
    + split; [eauto|exact ND'].
    + lia.
    + rewrite app_nil_r. rewrite app_length in Hl. cbn in Hl. lia.
    + exists c''. split; [reflexivity|]. rewrite E2 in *. split; [|congruence].
      rewrite app_nil_r in R''. rewrite firstn_app.
      replace (Z.to_nat (maxItems _ c) - length s1) with 0 by (rewrite app_length in *; cbn in *; lia).
      cbn [firstn]. rewrite app_nil_r. exact R''.
Qed.

Lemma link_front_rep c ids i e s :
  shape c ids -> ~ In i (head _ c :: ids ++ [tail _ c]) -> i < fresh _ c ->
  Forall2 (holds c) ids s -> holds c i e ->
  let c' := link_front B i c in
  shape c' (i :: ids) /\ Forall2 (holds c') (i :: ids) (e :: s).
Proof.
  intros S Hi Hf F He c'.
  assert (forall j, blob _ c' j = blob _ c j /\ ihash _ c' j = ihash _ c j) as Hsame by (intros; split; reflexivity).
  split.
  - split.
    + change (head _ c') with (head _ c). change (tail _ c') with (tail _ c).
      pose proof (sh_nodup _ _ S) as ND. cbn [app]. inversion ND; subst.
      cbn [In] in Hi. constructor; [|constructor; tauto].
      cbn [In]. intuition congruence.
    + change (head _ c') with (head _ c). change (tail _ c') with (tail _ c). cbn [app].
      pose proof (front_linked (next _ c) (prev _ c) (head _ c) i ids (tail _ c) (sh_nodup _ _ S) Hi (sh_linked _ _ S)) as L.
      cbn zeta in L. exact L.
    + change (head _ c') with (head _ c). change (tail _ c') with (tail _ c). change (fresh _ c') with (fresh _ c).
      intros x Hx. cbn [app In] in Hx. destruct Hx as [<-|[<-|Hx]]; [|exact Hf|].
      * apply (sh_fresh _ _ S). left. reflexivity.
      * apply (sh_fresh _ _ S). right. exact Hx.
  - constructor.
    + exact He.
    + eapply holds_ext; [|exact F]. intros; apply Hsame.
Qed.

Lemma touch_rep c s k :
  Rep c s ->
  match lookup K B K_eq k s with
  | Some b => exists c' i, touch K B matches (hash k) k c = (c', Some i) /\
       Rep c' ((k, b) :: drop K B K_eq k s) /\ blob _ c' i = b /\ maxItems _ c' = maxItems _ c /\
       (forall b', good k b' -> Rep (set_blob B i b' c') ((k, b') :: drop K B K_eq k s))
  | None => touch K B matches (hash k) k c = (c, None) /\ drop K B K_eq k s = s
  end.
Proof.
  intros R. pose proof R as [(ids & S & F & P) ND].
  pose proof (find_spec c s ids k R S F P) as Hf. unfold touch.
  destruct (Lru_model.find K B matches (hash k) k c) as [i|].
  - destruct Hf as (ids1 & ids2 & s1 & b & s2 & -> & -> & F1 & H & F2).
    assert (Hnk : forall e, In e s1 -> fst e <> k).
    { intros e He E. apply (nodup_hash_key s1 (k, b) s2 ND e (or_introl He)). cbn. congruence. }
    rewrite (lookup_split k s1 (k, b) s2 Hnk eq_refl). cbn [snd].
    rewrite (drop_split k s1 (k, b) s2 ND eq_refl).
    pose proof (sh_nodup _ _ S) as SN. pose proof (sh_linked _ _ S) as SL.
    rewrite <- app_assoc in SN, SL. cbn [app] in SN, SL.
    destruct (splice_linked _ _ _ _ _ _ _ SN SL) as (L & E1 & E2 & I1 & I2).
    set (c1 := set_prev B (next B (set_next B (prev B c i) (next B c i) c) i) (prev B (set_next B (prev B c i) (next B c i) c) i) (set_next B (prev B c i) (next B c i) c)).
    assert (S1 : shape c1 (ids1 ++ ids2)).
    { split.
      - cbn [head tail c1 set_prev set_next]. rewrite <- app_assoc. rewrite app_comm_cons in *. apply NoDup_remove_1 in SN. exact SN.
      - rewrite <- app_assoc. exact L.
      - intros x Hx. apply (sh_fresh _ _ S). rewrite <- app_assoc in *. cbn [app].
        cbn [head tail c1 set_prev set_next] in *.
        cbn [In] in *. rewrite !in_app_iff in *. cbn [In]. rewrite !in_app_iff. tauto. }
    assert (Hni : ~ In i (head _ c1 :: (ids1 ++ ids2) ++ [tail _ c1])).
    { cbn [head tail c1 set_prev set_next]. rewrite app_comm_cons in SN. apply NoDup_remove_2 in SN. cbn [app In] in *. rewrite <- app_assoc. exact SN. }
    assert (Hif : i < fresh _ c1).
    { apply (sh_fresh _ _ S). right. rewrite <- app_assoc. cbn [app]. apply in_or_app. right. left. reflexivity. }
    assert (F' : Forall2 (holds c1) (ids1 ++ ids2) (s1 ++ s2)).
    { apply Forall2_app; (eapply holds_ext; [|eassumption]); intros; split; reflexivity. }
    assert (H' : holds c1 i (k, b)) by exact H.
    destruct (link_front_rep c1 (ids1 ++ ids2) i (k, b) (s1 ++ s2) S1 Hni Hif F' H') as [S2 F2'].
    assert (Pit : Permutation (items _ c) (map (fun j => (ihash _ c j, j)) (i :: ids1 ++ ids2))).
    { rewrite P. apply Permutation_map. symmetry. apply Permutation_middle. }
    assert (NDn : NoDup (map (fun e : entry => hash (fst e)) ((k, b) :: s1 ++ s2))).
    { eapply Permutation_NoDup; [|exact ND]. apply Permutation_map. symmetry. apply Permutation_middle. }
    exists (link_front B i c1), i. split; [reflexivity|]. split; [|split; [|split]].
    + split; [|exact NDn]. exists (i :: ids1 ++ ids2). auto.
    + destruct H as (Hb & _). exact Hb.
    + reflexivity.
    + intros b' Gb. split; [|exact NDn]. exists (i :: ids1 ++ ids2). split; [|split].
      * destruct S2 as [A1 A2 A3]. split; assumption.
      * inversion F2'; subst. constructor.
        -- repeat split; cbn [fst snd]; try (apply upd_same); try apply Gb. apply H.
        -- eapply holds_ext; [|eassumption]. intros j Hj. split; [|reflexivity].
           apply upd_other. intros ->. apply Hni. right. apply in_or_app. left. exact Hj.
      * exact Pit.
  - rewrite (lookup_none k s Hf), (drop_none k s Hf). auto.
Qed.

Lemma insert_rep c s k b :
  Rep c s -> good k b -> (forall e, In e s -> fst e <> k) ->
  exists c', insert B (hash k) b c = Some c' /\ Rep c' (cut K B (maxItems _ c) ((k, b) :: hdrop (hash k) s)) /\
    maxItems _ c' = maxItems _ c.
Proof.
  intros R G Hk. pose proof R as [(ids & S & F & P) ND]. unfold insert.
  set (i := fresh _ c).
  set (c1 := alloc B (hash k) b c).
  assert (Hids : forall j, In j (head _ c :: ids ++ [tail _ c]) -> j <> i).
  { intros j Hj ->. apply (sh_fresh _ _ S) in Hj. subst i. lia. }
  assert (Hin : forall j, In j ids -> j <> i).
  { intros j Hj. apply Hids. right. apply in_or_app. left. exact Hj. }
  assert (S1 : shape c1 ids).
  { destruct S as [A1 A2 A3]. split; [exact A1|exact A2|]. intros x Hx. apply A3 in Hx. cbn [c1 alloc fresh]. lia. }
  assert (F1 : Forall2 (holds c1) ids s).
  { eapply holds_ext; [|exact F]. intros j Hj. split; apply upd_other; auto. }
  assert (P1 : Permutation (items _ c1) (map (fun j => (ihash _ c1 j, j)) ids)).
  { cbn [c1 alloc items ihash]. rewrite P. erewrite map_ext_in; [reflexivity|]. intros j Hj. cbn.
    rewrite upd_other by auto. reflexivity. }
  assert (R1 : Rep c1 s) by (split; eauto).
  assert (Hstep : exists c2 ids2, displace B (hash k) c1 = Some c2
     /\ shape c2 ids2 /\ Forall2 (holds c2) ids2 (hdrop (hash k) s) /\
     Permutation (items _ c2) (map (fun j => (ihash _ c2 j, j)) ids2) /\
     NoDup (map (fun e => hash (fst e)) (hdrop (hash k) s)) /\
     fresh _ c2 = fresh _ c1 /\ maxItems _ c2 = maxItems _ c1 /\ ihash _ c2 = ihash _ c1 /\ blob _ c2 = blob _ c1
     /\ (forall x, In x (head _ c2 :: ids2 ++ [tail _ c2]) -> In x (head _ c :: ids ++ [tail _ c]))).
  { unfold displace. destruct (map_get (hash k) (items _ c1)) as [x|] eqn:Gx.
    - destruct (index_some _ _ _ _ _ R1 S1 F1 P1 Gx) as (ids1 & ids2 & s1 & e & s2 & -> & -> & Fa & Hh & Fb & Eh).
      destruct (unlink_rep c1 ids1 x ids2 s1 e s2 S1 Fa Hh Fb ND P1) as (c2 & -> & S2 & F2 & P2 & ND2 & E1 & E2 & E3 & E4 & E5 & E6 & E7).
      exists c2, (ids1 ++ ids2). rewrite (hdrop_split _ _ _ _ ND Eh).
      split; [reflexivity|]. repeat (split; [solve [assumption|congruence]|]).
      rewrite E5, E6. intros y Hy. cbn [c1 alloc head tail] in Hy. rewrite <- app_assoc in *. cbn [app In] in *. rewrite !in_app_iff in *. cbn [In]. rewrite in_app_iff. cbn [In] in *. tauto.
    - pose proof (index_none _ _ _ _ R1 S1 F1 P1 Gx) as Hn.
      exists c1, ids. rewrite (hdrop_none _ _ Hn). split; [reflexivity|]. repeat (split; [solve [assumption|congruence]|]).
      auto. }
  destruct Hstep as (c2 & ids2 & Eq & S2 & F2 & P2 & ND2 & E1 & E2 & E3 & E4 & Hsub).
  rewrite Eq.
  set (c3 := set_items B (map_set (hash k) i (items _ c2)) c2).
  assert (Hdel : map_del (hash k) (items _ c2) = items _ c2).
  { unfold map_del. apply filter_all. intros [h j] Hj. cbn [fst].
    destruct (N.eqb_spec (hash k) h) as [E|]; [|reflexivity]. exfalso. subst h.
    apply (Permutation_in _ P2) in Hj. apply in_map_iff in Hj. destruct Hj as (j' & Ej & Hj). inversion Ej; subst.
    apply in_split in Hj. destruct Hj as (l1 & l2 & ->).
    apply Forall2_split_l in F2. destruct F2 as (t1 & e & t2 & Es & _ & (_ & Hhe & _) & _).
    assert (In e (hdrop (hash k) s)) as He by (rewrite Es; apply in_or_app; right; left; reflexivity).
    unfold hdrop in He. apply filter_In in He. destruct He as [_ He]. rewrite <- Hhe, H0, N.eqb_refl in He. discriminate. }
  assert (S3 : shape c3 ids2) by (destruct S2 as [A1 A2 A3]; split; assumption).
  assert (F3 : Forall2 (holds c3) ids2 (hdrop (hash k) s)).
  { eapply holds_ext; [|exact F2]. intros; split; reflexivity. }
  assert (H3 : holds c3 i (k, b)).
  { repeat split; cbn [c3 set_items blob ihash fst snd]; rewrite ?E3, ?E4; cbn [c1 alloc ihash blob]; try apply upd_same; apply G. }
  assert (Hni : ~ In i (head _ c3 :: ids2 ++ [tail _ c3])).
  { intros Hx. apply Hsub in Hx. apply Hids in Hx. congruence. }
  assert (Hfr : i < fresh _ c3).
  { cbn [c3 set_items fresh]. rewrite E1. cbn. subst i. lia. }
  destruct (link_front_rep c3 ids2 i (k, b) _ S3 Hni Hfr F3 H3) as [S4 F4].
  assert (R4 : Rep (link_front B i c3) ((k, b) :: hdrop (hash k) s)).
  { split.
    - exists (i :: ids2). split; [exact S4|]. split; [exact F4|].
      change (items B (link_front B i c3)) with (map_set (hash k) i (items _ c2)).
      unfold map_set. rewrite Hdel. cbn [map].
      change (ihash B (link_front B i c3)) with (ihash B c2).
      assert (Ei : ihash B c2 i = hash k) by (rewrite E3; apply upd_same). rewrite Ei. constructor. exact P2.
    - cbn [map fst]. constructor; [|exact ND2]. intros Hx. apply in_map_iff in Hx. destruct Hx as (e & Ee & He).
      unfold hdrop in He. apply filter_In in He. rewrite Ee, N.eqb_refl in He. destruct He; discriminate. }
  unfold resize. change (maxItems B (link_front B i c3)) with (maxItems B c2). rewrite E2. cbn [c1 alloc maxItems].
  unfold cut. destruct (Z.leb_spec (maxItems _ c) 0).
  - eexists. split; [reflexivity|]. split; [exact R4|]. change (maxItems B (link_front B i c3)) with (maxItems B c2). rewrite E2. reflexivity.
  - destruct (resize_rep (length (items B (link_front B i c3))) _ _ R4) as (c5 & -> & R5 & E5).
    + change (maxItems B (link_front B i c3)) with (maxItems B c2). rewrite E2. exact H.
    + rewrite (rep_length _ _ R4). lia.
    + change (maxItems B (link_front B i c3)) with (maxItems B c2) in *. rewrite E2 in *. cbn [c1 alloc maxItems] in *. eauto.
Qed.

Lemma hdrop_drop k s : NoDup (map (fun e => hash (fst e)) s) ->
  (exists b, In (k, b) s) -> hdrop (hash k) s = drop K B K_eq k s.
Proof.
  intros ND (b & Hb). apply in_split in Hb. destruct Hb as (s1 & s2 & ->).
  rewrite (hdrop_split (hash k) _ (k, b) _ ND eq_refl), (drop_split k _ (k, b) _ ND eq_refl). reflexivity.
Qed.

Lemma lookup_in k s b : lookup K B K_eq k s = Some b -> In (k, b) s.
Proof.
  unfold lookup. destruct (List.find (fun e => keqb K K_eq k (fst e)) s) as [[k' b']|] eqn:E; [|discriminate].
  apply find_some in E. destruct E as [E1 E2]. cbn in E2. apply keqb_true in E2. subst. cbn. intros [= ->]. exact E1.
Qed.

Lemma cut_noop cap s : (cap <= 0 \/ Z.of_nat (length s) <= cap)%Z -> cut K B cap s = s.
Proof. unfold cut. intros H. destruct (Z.leb_spec cap 0); [reflexivity|]. apply firstn_all2. lia. Qed.

Definition bounded (c : lru) (s : list entry) : Prop := (maxItems _ c <= 0)%Z \/ (Z.of_nat (length s) <= maxItems _ c)%Z.

Lemma addKey_rep c s k b :
  Rep c s -> bounded c s -> good k b ->
  exists c', addKey K B matches hash k b c = Some c' /\ Rep c' (cut K B (maxItems _ c) ((k, b) :: hdrop (hash k) s)) /\
    maxItems _ c' = maxItems _ c.
Proof.
  intros R Hb G. unfold addKey. pose proof (touch_rep c s k R) as T.
  destruct (lookup K B K_eq k s) as [b0|] eqn:L.
  - destruct T as (c' & i & -> & R' & Eb & Em & Hset).
    eexists. split; [reflexivity|]. apply lookup_in in L.
    rewrite (hdrop_drop k s (rep_hash _ _ R)) by eauto.
    rewrite cut_noop; [split; [auto|exact Em]|].
    apply in_split in L. destruct L as (s1 & s2 & ->).
    rewrite (drop_split k s1 (k, b0) s2 (rep_hash _ _ R) eq_refl).
    destruct Hb as [Hb|Hb]; [left; exact Hb|right]. cbn [length] in *. rewrite app_length in *. cbn [length] in *. lia.
  - destruct T as [-> Hd]. apply insert_rep; auto.
    intros e He E. subst k. unfold lookup in L.
    destruct (List.find (fun e0 => keqb K K_eq (fst e) (fst e0)) s) eqn:E'; [discriminate|].
    apply (find_none _ _ E') in He. rewrite keqb_refl in He. discriminate.
Qed.

Lemma delete_rep c s k :
  Rep c s -> exists c', delete K B matches hash k c = Some c' /\ Rep c' (drop K B K_eq k s) /\ maxItems _ c' = maxItems _ c.
Proof.
  intros R. pose proof R as [(ids & S & F & P) ND]. unfold delete.
  pose proof (find_spec c s ids k R S F P) as Hf.
  destruct (Lru_model.find K B matches (hash k) k c) as [i|].
  - destruct Hf as (ids1 & ids2 & s1 & b & s2 & -> & -> & F1 & H & F2).
    rewrite (drop_split k s1 (k, b) s2 ND eq_refl).
    destruct (unlink_rep c ids1 i ids2 s1 (k, b) s2 S F1 H F2 ND P) as (c2 & -> & S2 & F2' & P2 & ND2 & E1 & E2 & _).
    exists c2. split; [reflexivity|]. split; [|exact E2]. split; eauto.
  - rewrite (drop_none k s Hf). eauto.
Qed.

Lemma linked_next nx pv xs a b ys : linked nx pv (xs ++ a :: b :: ys) -> nx a = b.
Proof. intros L. apply linked_app in L. destruct L as [_ L]. rewrite linked_cons2 in L. apply L. Qed.

Lemma deleteFunc_loop_rep f n c ids1 ids2 s1 s2 :
  shape c (ids1 ++ ids2) -> Forall2 (holds c) ids1 s1 -> Forall2 (holds c) ids2 s2 ->
  NoDup (map (fun e => hash (fst e)) (s1 ++ s2)) ->
  Permutation (items _ c) (map (fun i => (ihash _ c i, i)) (ids1 ++ ids2)) ->
  length ids2 <= n ->
  exists c', deleteFunc_loop B n f (List.hd (tail _ c) ids2) c = Some c' /\
    Rep c' (s1 ++ filter (fun e => negb (f (snd e))) s2) /\ maxItems _ c' = maxItems _ c.
Proof.
  revert c ids1 ids2 s1 s2. induction n as [|n IH]; intros c ids1 ids2 s1 s2 S F1 F2 ND P Hn.
  - destruct ids2; [|cbn in Hn; lia]. inversion F2; subst. cbn [hd deleteFunc_loop]. rewrite Nat.eqb_refl.
    eexists. split; [reflexivity|]. split; [|reflexivity]. cbn [filter]. split; [|exact ND]. exists (ids1 ++ []). split; [exact S|]. split; [|exact P].
    apply Forall2_app; assumption.
  - destruct ids2 as [|i ids2].
    { inversion F2; subst. cbn [hd deleteFunc_loop]. rewrite Nat.eqb_refl.
      eexists. split; [reflexivity|]. split; [|reflexivity]. cbn [filter]. split; [|exact ND]. exists (ids1 ++ []). split; [exact S|]. split; [|exact P].
      apply Forall2_app; assumption. }
    inversion F2 as [|? e ? s2' He F2']; subst. cbn [hd deleteFunc_loop].
    pose proof (sh_nodup _ _ S) as SN.
    assert (Hit : i <> tail _ c).
    { intros ->. inversion SN as [|? ? _ G]; subst. apply NoDup_remove_2 in G. rewrite app_nil_r in G. apply G.
      apply in_or_app; right; left; reflexivity. }
    apply Nat.eqb_neq in Hit. rewrite Hit.
    assert (Hnx : next _ c i = hd (tail _ c) ids2).
    { pose proof (sh_linked _ _ S) as L. rewrite <- app_assoc in L. cbn [app] in L. rewrite app_comm_cons in L.
      destruct ids2 as [|j ids2]; cbn [hd] in *; exact (linked_next _ _ (_ :: _) _ _ _ L). }
    rewrite Hnx. pose proof He as (Hb & _). rewrite Hb. cbn [filter].
    destruct (f (snd e)); cbn [negb].
    + destruct (unlink_rep c ids1 i ids2 s1 e s2' S F1 He F2' ND P) as (c2 & -> & S2 & Fa & P2 & ND2 & E1 & E2 & E3 & E4 & E5 & E6 & E7).
      rewrite <- E6, <- E2. apply (IH c2 ids1 ids2 s1 s2'); auto.
      * eapply holds_ext; [|exact F1]. intros; rewrite E3, E4; auto.
      * eapply holds_ext; [|exact F2']. intros; rewrite E3, E4; auto.
      * cbn in Hn. lia.
    + destruct (IH c (ids1 ++ [i]) ids2 (s1 ++ [e]) s2') as (c' & Hc & R & E).
      * rewrite <- app_assoc. exact S.
      * apply Forall2_app; [assumption|constructor; [assumption|constructor]].
      * assumption.
      * rewrite <- app_assoc. exact ND.
      * rewrite <- app_assoc. exact P.
      * cbn in Hn. lia.
      * exists c'. rewrite <- app_assoc in R. auto.
Qed.

Lemma deleteFunc_rep f c s :
  Rep c s -> exists c', deleteFunc B f c = Some c' /\ Rep c' (filter (fun e => negb (f (snd e))) s) /\ maxItems _ c' = maxItems _ c.
Proof.
  intros [(ids & S & F & P) ND]. unfold deleteFunc.
  assert (Hh : next _ c (head _ c) = hd (tail _ c) ids).
  { pose proof (sh_linked _ _ S) as L. destruct ids; cbn [app hd] in *; rewrite linked_cons2 in L; apply L. }
  rewrite Hh. apply (deleteFunc_loop_rep f _ c [] ids [] s); auto.
  rewrite (Permutation_length P), map_length. lia.
Qed.

Lemma reset_rep c s : Rep c s -> Rep (reset B c) [].
Proof.
  intros [(ids & S & F & P) ND]. split; [|constructor]. exists []. split; [|split; constructor].
  split; cbn [reset head tail next prev fresh app].
  - constructor; [cbn; lia|]. constructor; [cbn; tauto|constructor].
  - rewrite linked_cons2. repeat split; apply upd_same.
  - intros x [<-|[<-|[]]]; lia.
Qed.

Lemma new_rep nilblob cap : Rep (newLRUCache B nilblob cap) [].
Proof.
  split; [|constructor]. exists []. split; [|split; constructor].
  split; cbn [newLRUCache head tail next prev fresh app].
  - constructor; [cbn; lia|]. constructor; [cbn; tauto|constructor].
  - rewrite linked_cons2. repeat split.
  - intros x [<-|[<-|[]]]; lia.
Qed.

Definition op_good (o : op K B) : Prop := match o with Add _ _ k b => good k b | _ => True end.

Lemma drop_length k s : length (drop K B K_eq k s) <= length s.
Proof. unfold drop. induction s as [|a s IH]; cbn [filter length]; [lia|]. destruct (negb _); cbn [length]; lia. Qed.
Lemma filter_len {X} (f : X -> bool) s : length (filter f s) <= length s.
Proof. induction s as [|a s IH]; cbn [filter length]; [lia|]. destruct (f a); cbn [length]; lia. Qed.

Lemma cut_bounded cap s : (cap <= 0)%Z \/ (Z.of_nat (length (cut K B cap s)) <= cap)%Z.
Proof. unfold cut. destruct (Z.leb_spec cap 0); [left; lia|right]. rewrite firstn_length. lia. Qed.

Lemma hstep_bounded cap s o :
  NoDup (map (fun e => hash (fst e)) s) ->
  ((cap <= 0)%Z \/ (Z.of_nat (length s) <= cap)%Z) ->
  (cap <= 0)%Z \/ (Z.of_nat (length (fst (hstep cap s o))) <= cap)%Z.
Proof.
  intros ND H. destruct o as [k b|k|k|f|]; cbn [hstep].
  - apply cut_bounded.
  - destruct (lookup K B K_eq k s) as [b|] eqn:L; cbn [fst]; [|exact H].
    destruct H as [H|H]; [left; exact H|right]. apply lookup_in in L. apply in_split in L. destruct L as (s1 & s2 & ->).
    rewrite (drop_split k s1 (k, b) s2 ND eq_refl). cbn [length]. rewrite app_length in *. cbn [length] in *. lia.
  - cbn [fst]. pose proof (drop_length k s). lia.
  - cbn [fst]. pose proof (filter_len (fun e => negb (f (snd e))) s). lia.
  - cbn. lia.
Qed.

(** One operation: no panic, and the abstract list follows. *)
Lemma step_rep c s o :
  Rep c s -> bounded c s -> op_good o ->
  exists c', step K B matches hash c o = Some (c', snd (hstep (maxItems _ c) s o)) /\
     Rep c' (fst (hstep (maxItems _ c) s o)) /\ maxItems _ c' = maxItems _ c /\ bounded c' (fst (hstep (maxItems _ c) s o)).
Proof.
  intros R Hb G.
  assert (HB : (maxItems _ c <= 0)%Z \/ (Z.of_nat (length (fst (hstep (maxItems _ c) s o))) <= maxItems _ c)%Z)
   by (apply hstep_bounded; [apply R|exact Hb]).
  unfold bounded. destruct o as [k b|k|k|f|]; cbn [step hstep fst snd op_good] in *.
  - destruct (addKey_rep c s k b R Hb G) as (c' & -> & R' & E). exists c'. rewrite E. auto.
  - unfold get. pose proof (touch_rep c s k R) as T. destruct (lookup K B K_eq k s) as [b|].
    + destruct T as (c' & i & -> & R' & E1 & E2 & _). exists c'. cbn [option_map fst snd] in *. rewrite E1, E2. auto.
    + destruct T as [-> _]. exists c. auto.
  - destruct (delete_rep c s k R) as (c' & -> & R' & E). exists c'. rewrite E. auto.
  - destruct (deleteFunc_rep f c s R) as (c' & -> & R' & E). exists c'. rewrite E. auto.
  - exists (reset B c). split; [reflexivity|]. split; [eapply reset_rep; exact R|]. split; [reflexivity|exact HB].
Qed.

Fixpoint hrun (cap : Z) (s : list entry) (l : list (op K B)) : list entry * list (option B * nat) :=
  match l with
  | [] => (s, [])
  | o :: l' => let s' := fst (hstep cap s o) in
               (fst (hrun cap s' l'), (snd (hstep cap s o), length s') :: snd (hrun cap s' l'))
  end.

Lemma run_rep l : forall c s,
  Rep c s -> bounded c s -> Forall op_good l ->
  exists c', run K B matches hash c l = Some (c', snd (hrun (maxItems _ c) s l)) /\
    Rep c' (fst (hrun (maxItems _ c) s l)) /\ maxItems _ c' = maxItems _ c /\ bounded c' (fst (hrun (maxItems _ c) s l)).
Proof.
  induction l as [|o l IH]; intros c s R Hb G; cbn [run hrun fst snd].
  - eauto.
  - inversion G as [|? ? G1 G2]; subst. destruct (step_rep c s o R Hb G1) as (c' & -> & R' & E & Hb').
    destruct (IH c' _ R' Hb' G2) as (c'' & -> & R'' & E' & Hb''). rewrite E in *.
    exists c''. unfold size. rewrite (rep_length _ _ R'). auto.
Qed.

(** serialization: oldest first *)
Lemma serialize_loop_rep n c ids1 ids2 s1 :
  shape c (ids1 ++ ids2) -> Forall2 (holds c) ids1 s1 -> length ids1 <= n ->
  serialize_loop B n (last ids1 (head _ c)) c = Some (rev (map snd s1)).
Proof.
  revert ids1 ids2 s1. induction n as [|n IH]; intros ids1 ids2 s1 S F Hn.
  - destruct ids1; [|cbn in Hn; lia]. inversion F; subst. cbn [last serialize_loop]. rewrite Nat.eqb_refl. reflexivity.
  - destruct (list_eq_dec Nat.eq_dec ids1 []) as [->|Hne].
    { inversion F; subst. cbn [last serialize_loop]. rewrite Nat.eqb_refl. reflexivity. }
    destruct (exists_last' _ Hne) as (ids' & i & ->).
    destruct (Forall2_split_l _ _ _ _ _ F) as (s' & e & s2 & -> & F1 & He & F2). inversion F2; subst.
    rewrite last_last. cbn [serialize_loop].
    pose proof (sh_nodup _ _ S) as SN.
    assert (Hih : i <> head _ c).
    { intros ->. inversion SN as [|? ? Gn]; subst. apply Gn. rewrite !in_app_iff. cbn. tauto. }
    apply Nat.eqb_neq in Hih. rewrite Hih.
    assert (Hp : prev _ c i = last ids' (head _ c)).
    { pose proof (sh_linked _ _ S) as L. rewrite <- !app_assoc in L. cbn [app] in L.
      destruct (list_eq_dec Nat.eq_dec ids' []) as [->|Hne'].
      - cbn [app last] in *. rewrite linked_cons2 in L. apply L.
      - destruct (exists_last' _ Hne') as (l1 & j & ->). rewrite last_last. rewrite <- app_assoc in L. cbn [app] in L.
        rewrite app_comm_cons in L. apply linked_app in L. destruct L as [_ L]. rewrite linked_cons2 in L. apply L. }
    rewrite <- app_assoc in S.
    assert (E : serialize_loop B n (prev B c i) c = Some (rev (map snd s'))).
    { rewrite Hp. eapply IH; [exact S|exact F1|]. rewrite app_length in Hn; cbn in Hn; lia. }
    rewrite E.
    cbn [option_map]. rewrite map_app, rev_app_distr. cbn. destruct He as (-> & _). reflexivity.
Qed.

Lemma serialize_rep c s : Rep c s -> serialize B c = Some (rev (map snd s)).
Proof.
  intros [(ids & S & F & P) ND]. unfold serialize.
  assert (Hp : prev _ c (tail _ c) = last ids (head _ c)).
  { pose proof (sh_linked _ _ S) as L.
    destruct (list_eq_dec Nat.eq_dec ids []) as [->|Hne'].
    - cbn [app last] in *. rewrite linked_cons2 in L. apply L.
    - destruct (exists_last' _ Hne') as (l1 & j & ->). rewrite last_last. rewrite <- app_assoc in L. cbn [app] in L.
      rewrite app_comm_cons in L. apply linked_app in L. destruct L as [_ L]. rewrite linked_cons2 in L. apply L. }
  rewrite Hp. apply (serialize_loop_rep _ c ids [] s).
  - rewrite app_nil_r. exact S.
  - exact F.
  - rewrite (Permutation_length P), map_length. lia.
Qed.

End Rep.
