(** Proofs about the buffers of the cache. *)
From Verif Require Import Base Pool_model Pool_spec.
From Coq Require Import Permutation.
Local Open Scope nat_scope.

Lemma nth_put {A} (l : list A) i x p j : nth_error l i = Some p -> nth_error (put i x l) j = if i =? j then Some x else nth_error l j.
Proof. revert i j; induction l as [|y l IH]; intros [|i] [|j] H; try discriminate; cbn in *; auto. Qed.
Lemma len_put {A} (l : list A) i x : length (put i x l) = length l.
Proof. revert i; induction l as [|y l IH]; intros [|i]; cbn; auto. Qed.
Lemma put_put {A} (l : list A) i x y : put i x (put i y l) = put i x l.
Proof. revert i; induction l as [|z l IH]; intros [|i]; cbn; auto. now rewrite IH. Qed.
Lemma nth_put_d {A} (l : list A) i x j d : i < length l -> nth j (put i x l) d = if i =? j then x else nth j l d.
Proof. revert i j; induction l as [|y l IH]; intros [|i] [|j] H; cbn in *; try lia; auto. apply IH; lia. Qed.
Lemma nth_new {A} (l : list A) x j p : nth_error (l ++ [x]) j = Some p -> nth_error l j = Some p \/ (p = x /\ j = length l).
Proof.
  intros H. destruct (Nat.lt_ge_cases j (length l)) as [L|L].
  - rewrite nth_error_app1 in H; auto.
  - rewrite nth_error_app2 in H; auto. destruct (j - length l) as [|n] eqn:E; cbn in H; [right; split; [congruence|lia]|destruct n; discriminate].
Qed.
Lemma in_remove_nth {A} (l : list A) n x : In x (remove_nth n l) -> In x l.
Proof. revert n; induction l as [|y l IH]; intros [|n]; cbn; auto. intros [?|?]; eauto. Qed.
Lemma nodup_remove_nth {A} (l : list A) n : NoDup l -> NoDup (remove_nth n l).
Proof. revert n; induction l as [|y l IH]; intros [|n] H; cbn; auto; inversion H; subst; auto. constructor; auto. intros I. now apply in_remove_nth in I. Qed.
Lemma perm_remove_nth {A} (l : list A) n x : nth_error l n = Some x -> Permutation l (x :: remove_nth n l).
Proof.
  revert n; induction l as [|y l IH]; intros [|n] H; try discriminate; cbn in *.
  - injection H as ->. reflexivity.
  - rewrite (IH _ H) at 1. constructor.
Qed.

(** What is in memory at each place of a call *)
Definition holds_at (h : list (list byte)) (a o : nat) (l : list byte) (k : nat) : Prop := forall j, j < k -> nth (o + j) (nth a h []) 0%N = nth j l 0%N.
Definition data (h : list (list byte)) (c : call) (x : pc) : Prop :=
  let sz a := length (nth a h []) in
  match x with
  | Pack p b a k => k <= length (wire c) /\ 2048 <= sz b /\ (if a =? b then offset c else 0) + need c <= sz a /\ holds_at h a (if a =? b then offset c else 0) (wire c) k
  | Move p a r k => knd c <> Memory /\ fails c = false /\ a <> r /\ k <= length (wire c) /\ sz r = 10 + length (wire c) /\ holds_at h a 0 (wire c) (length (wire c)) /\ holds_at h r 10 (wire c) k
  | Head p r k => knd c <> Memory /\ fails c = false /\ k <= 10 /\ 10 + length (wire c) <= sz r /\ holds_at h r 10 (wire c) (length (wire c)) /\ holds_at h r 0 (header c) k
  | Adopt p r => fails c = false /\ (knd c = Memory -> need c <= sz r) /\ holds_at h r 0 (meant c) (length (meant c))
  | Choose p r => knd c = Async /\ fails c = false /\ holds_at h r 0 (meant c) (length (meant c))
  | Read p r out => fails c = false /\ holds_at h r 0 (meant c) (length (meant c)) /\ length out <= length (meant c) /\ out = firstn (length out) (meant c)
  | Put p b out => (b = true -> knd c = Async) /\ match out with Some v => v = meant c /\ fails c = false | None => True end
  | Release out => knd c = Async /\ match out with Some v => v = meant c /\ fails c = false | None => True end
  | Done (Some v) => v = meant c /\ fails c = false
  | Panic => False
  | _ => True
  end.
Lemma data_frame h h' c x : (forall a, In a (uses x) -> nth a h' [] = nth a h []) -> data h c x -> data h' c x.
Proof.
  intros F D. destruct x; cbn in *; unfold holds_at in *; auto;
    repeat match goal with H : context [nth ?a h []] |- _ => rewrite <- (F a) in H by auto end; auto.
Qed.
Record inv (s : st) : Prop := {
  P0 : NoDup (pool s);
  P1 : forall p, In p (pool s) -> p < length (ptrs s);
  P2 : forall i c x p, nth_error (calls s) i = Some (c, x) -> holds x = Some p -> p < length (ptrs s) /\ ~ In p (pool s);
  P3 : forall i j c d x y p, nth_error (calls s) i = Some (c, x) -> nth_error (calls s) j = Some (d, y) -> holds x = Some p -> holds y = Some p -> i = j;
  P4 : forall p q a, nth_error (ptrs s) p = Some a -> nth_error (ptrs s) q = Some a -> p = q;
  P4' : forall p a, nth_error (ptrs s) p = Some a -> a < length (heap s) /\ 2048 <= size s a;
  P5 : forall i c x a, nth_error (calls s) i = Some (c, x) -> In a (uses x) -> a < length (heap s) /\ forall p, nth_error (ptrs s) p = Some a -> holds x = Some p;
  P6 : forall i j c d x y a, nth_error (calls s) i = Some (c, x) -> nth_error (calls s) j = Some (d, y) -> In a (uses x) -> In a (uses y) -> i = j;
  P7 : forall i c x, nth_error (calls s) i = Some (c, x) -> sound c /\ data (heap s) c x }.

Lemma inv_init : inv init.
Proof. constructor; cbn; try (intros [|i]; discriminate); try (intros [|i] [|j]; discriminate); try constructor; try contradiction; intros [|i]; try discriminate; intros [|j]; discriminate. Qed.

(** A call goes on, with memory that only it sees changed *)
Lemma inv_go s i c x x' h' n' : inv s -> nth_error (calls s) i = Some (c, x) ->
  length (heap s) <= length h' ->
  (forall a, a < length (heap s) -> length (nth a h' []) = length (nth a (heap s) [])) ->
  (forall a, a < length (heap s) -> ~ In a (uses x) -> nth a h' [] = nth a (heap s) []) ->
  (holds x' = holds x \/ holds x' = None /\ uses x' = []) ->
  (forall a, In a (uses x') -> In a (uses x) \/ (length (heap s) <= a < length h') \/ exists p, holds x = Some p /\ nth_error (ptrs s) p = Some a) ->
  data h' c x' -> inv (St h' (ptrs s) (pool s) n' (put i (c, x') (calls s))).
Proof.
  intros I Q L SZ FR HO US DA.
  assert (forall j d y, nth_error (put i (c, x') (calls s)) j = Some (d, y) -> (j = i /\ d = c /\ y = x') \/ (j <> i /\ nth_error (calls s) j = Some (d, y))) as N.
  { intros j d y. rewrite (nth_put _ _ _ _ _ Q). destruct (Nat.eqb_spec i j) as [<-|NE]; [intros [= <- <-]; auto|auto]. }
  assert (forall p, holds x' = Some p -> holds x = Some p) as HP by (intros p E; destruct HO as [<-|[E' _]]; [auto|congruence]).
  (* an array of another call is not one of this call *)
  assert (forall a j d y, In a (uses x') -> j <> i -> nth_error (calls s) j = Some (d, y) -> In a (uses y) -> False) as AP.
  { intros a j d y U NE Y V. destruct (P5 _ I _ _ _ _ Y V) as [LT PT]. destruct (US _ U) as [U'|[U'|(p & E & F)]].
    - apply NE. exact (P6 _ I _ _ _ _ _ _ _ Y Q V U').
    - lia.
    - apply NE. exact (P3 _ I _ _ _ _ _ _ _ Y Q (PT _ F) E). }
  constructor; cbn [heap ptrs pool sem calls]; unfold size; cbn [heap].
  - apply (P0 _ I).
  - apply (P1 _ I).
  - intros j d y p Y E. destruct (N _ _ _ Y) as [(-> & -> & ->)|[NE Y']]; [exact (P2 _ I _ _ _ _ Q (HP _ E))|exact (P2 _ I _ _ _ _ Y' E)].
  - intros j k d e y z p Y Z E F. destruct (N _ _ _ Y) as [(-> & -> & ->)|[NE Y']], (N _ _ _ Z) as [(-> & -> & ->)|[NE' Z']]; auto.
    + exact (P3 _ I _ _ _ _ _ _ _ Q Z' (HP _ E) F).
    + exact (P3 _ I _ _ _ _ _ _ _ Y' Q E (HP _ F)).
    + exact (P3 _ I _ _ _ _ _ _ _ Y' Z' E F).
  - apply (P4 _ I).
  - intros p a E. destruct (P4' _ I _ _ E) as [A B]. unfold size in B. rewrite SZ by auto. split; [lia|auto].
  - intros j d y a Y U. destruct (N _ _ _ Y) as [(-> & -> & ->)|[NE Y']].
    + assert (holds x' = holds x) as HE by (destruct HO as [?|[_ E]]; [auto|rewrite E in U; contradiction]).
      destruct (US _ U) as [U'|[U'|(p & E & F)]].
      * destruct (P5 _ I _ _ _ _ Q U') as [A B]. split; [lia|]. intros p F. rewrite HE. auto.
      * split; [lia|]. intros p F. destruct (P4' _ I _ _ F). lia.
      * destruct (P4' _ I _ _ F) as [A _]. split; [lia|]. intros q G. rewrite HE, E. f_equal. exact (P4 _ I _ _ _ F G).
    + destruct (P5 _ I _ _ _ _ Y' U) as [A B]. split; [lia|auto].
  - intros j k d e y z a Y Z U V. destruct (N _ _ _ Y) as [(-> & -> & ->)|[NE Y']], (N _ _ _ Z) as [(-> & -> & ->)|[NE' Z']]; auto.
    + exfalso. eapply AP; eauto.
    + exfalso. eapply AP; eauto.
    + exact (P6 _ I _ _ _ _ _ _ _ Y' Z' U V).
  - intros j d y Y. destruct (N _ _ _ Y) as [(-> & -> & ->)|[NE Y']].
    + split; [exact (proj1 (P7 _ I _ _ _ Q))|auto].
    + destruct (P7 _ I _ _ _ Y') as [A B]. split; auto. eapply data_frame; [|exact B]. intros a U. apply FR.
      * exact (proj1 (P5 _ I _ _ _ _ Y' U)).
      * intros V. apply NE. exact (P6 _ I _ _ _ _ _ _ _ Y' Q U V).
Qed.
(** Only the place changes *)
Lemma inv_at s i c x x' n' : inv s -> nth_error (calls s) i = Some (c, x) -> (holds x' = holds x \/ holds x' = None /\ uses x' = []) ->
  (forall a, In a (uses x') -> In a (uses x) \/ exists p, holds x = Some p /\ nth_error (ptrs s) p = Some a) -> data (heap s) c x' -> inv (at_pc i c x' (with_sem n' s)).
Proof. intros I Q H U D. apply (inv_go s i c x x' (heap s) n'); auto. intros a V. destruct (U a V); auto. Qed.
Lemma inv_at' s i c x x' : inv s -> nth_error (calls s) i = Some (c, x) -> (holds x' = holds x \/ holds x' = None /\ uses x' = []) ->
  (forall a, In a (uses x') -> In a (uses x) \/ exists p, holds x = Some p /\ nth_error (ptrs s) p = Some a) -> data (heap s) c x' -> inv (at_pc i c x' s).
Proof. intros. now apply (inv_go s i c x x' (heap s) (sem s)); auto; firstorder. Qed.
Lemma inv_alloc s i c x x' n : inv s -> nth_error (calls s) i = Some (c, x) -> holds x' = holds x ->
  (forall a, In a (uses x') -> In a (uses x) \/ a = length (heap s) \/ exists p, holds x = Some p /\ nth_error (ptrs s) p = Some a) ->
  data (heap s ++ [zeros n]) c x' -> inv (at_pc i c x' (alloc n s)).
Proof.
  intros I Q H U D. apply (inv_go s i c x x' (heap s ++ [zeros n]) (sem s)); auto.
  - rewrite app_length. lia.
  - intros a L. now rewrite app_nth1.
  - intros a L _. now rewrite app_nth1.
  - intros a V. rewrite app_length; cbn. destruct (U a V) as [|[->|]]; auto. right; left; lia.
Qed.
Lemma inv_write s i c x x' a k b : inv s -> nth_error (calls s) i = Some (c, x) -> In a (uses x) -> holds x' = holds x -> (forall a, In a (uses x') -> In a (uses x)) ->
  data (put a (put k b (nth a (heap s) [])) (heap s)) c x' -> inv (at_pc i c x' (write a k b s)).
Proof.
  intros I Q A H U D. assert (a < length (heap s)) as LA by exact (proj1 (P5 _ I _ _ _ _ Q A)).
  apply (inv_go s i c x x' (put a (put k b (nth a (heap s) [])) (heap s)) (sem s)); auto.
  - now rewrite len_put.
  - intros e L. rewrite nth_put_d by auto. destruct (Nat.eqb_spec a e) as [->|]; [apply len_put|auto].
  - intros e L NI. rewrite nth_put_d by auto. destruct (Nat.eqb_spec a e) as [->|]; [contradiction|auto].
Qed.
(** adoptPackBuf *)
Lemma inv_aim s i c p r : inv s -> nth_error (calls s) i = Some (c, Adopt p r) -> 2048 <= size s r -> inv (aim p r s).
Proof.
  intros I Q SZ. destruct (P2 _ I _ _ _ _ Q eq_refl) as [LP NP]. destruct (P5 _ I _ _ _ r Q (or_introl eq_refl)) as [LR PR].
  destruct (nth_error (ptrs s) p) as [a0|] eqn:E0; [|apply nth_error_None in E0; lia].
  assert (forall q a, nth_error (put p r (ptrs s)) q = Some a -> (q = p /\ a = r) \/ (q <> p /\ nth_error (ptrs s) q = Some a)) as N.
  { intros q a. rewrite (nth_put _ _ _ _ _ E0). destruct (Nat.eqb_spec p q) as [<-|]; [intros [= <-]; auto|auto]. }
  constructor; unfold aim, size; cbn [heap ptrs pool sem calls]; rewrite ?len_put.
  - apply (P0 _ I).
  - apply (P1 _ I).
  - apply (P2 _ I).
  - apply (P3 _ I).
  - intros q q' a E F. destruct (N _ _ E) as [(-> & ->)|[NE E']], (N _ _ F) as [(-> & G)|[NE' F']]; subst; auto.
    + pose proof (PR _ F') as [= ->]. auto.
    + pose proof (PR _ E') as [= ->]. auto.
    + exact (P4 _ I _ _ _ E' F').
  - intros q a E. destruct (N _ _ E) as [(-> & ->)|[NE E']]; [auto|exact (P4' _ I _ _ E')].
  - intros j d y a Y U. destruct (P5 _ I _ _ _ _ Y U) as [A B]. split; auto. intros q E. destruct (N _ _ E) as [(-> & ->)|[NE E']]; auto.
    assert (i = j) as <- by exact (P6 _ I _ _ _ _ _ _ _ Q Y (or_introl eq_refl) U). rewrite Q in Y. injection Y as <- <-. reflexivity.
  - apply (P6 _ I).
  - apply (P7 _ I).
Qed.
(** putPackBuf *)
Lemma inv_put s i c p b out x' n' : inv s -> nth_error (calls s) i = Some (c, Put p b out) -> holds x' = None -> uses x' = [] -> data (heap s) c x' ->
  inv (St (heap s) (ptrs s) (p :: pool s) n' (put i (c, x') (calls s))).
Proof.
  intros I Q H U D. destruct (P2 _ I _ _ _ _ Q eq_refl) as [LP NP].
  assert (inv (St (heap s) (ptrs s) (pool s) n' (put i (c, x') (calls s)))) as J.
  { apply (inv_go s i c (Put p b out) x' (heap s) n'); auto. intros a V. rewrite U in V. contradiction. }
  destruct J as [A0 A1 A2 A3 A4 A4' A5 A6 A7]. constructor; cbn [heap ptrs pool sem calls] in *; auto.
  - now constructor.
  - intros q [<-|G]; auto.
  - intros j d y q Y E. destruct (A2 _ _ _ _ Y E) as [B C]. split; auto. intros [<-|G]; [|contradiction].
    rewrite (nth_put _ _ _ _ _ Q) in Y. destruct (Nat.eqb_spec i j) as [<-|NE]; [congruence|].
    apply NE. exact (P3 _ I _ _ _ _ _ _ _ Q Y eq_refl E).
Qed.
(** Pool.Get: the pointer is with the call *)
Lemma inv_get s i c p n : inv s -> nth_error (calls s) i = Some (c, Start) -> nth_error (pool s) n = Some p ->
  inv (at_pc i c (Put p false None) (with_pool (remove_nth n (pool s)) s)).
Proof.
  intros I Q E. pose proof (nth_error_In _ _ E) as IP.
  assert (~ In p (remove_nth n (pool s))) as NI.
  { pose proof (P0 _ I) as ND. apply (Permutation_NoDup (perm_remove_nth _ _ _ E)) in ND. now inversion ND. }
  assert (forall j d y, nth_error (put i (c, Put p false None) (calls s)) j = Some (d, y) -> (j = i /\ d = c /\ y = Put p false None) \/ (j <> i /\ nth_error (calls s) j = Some (d, y))) as N.
  { intros j d y. rewrite (nth_put _ _ _ _ _ Q). destruct (Nat.eqb_spec i j) as [<-|NE]; [intros [= <- <-]; auto|auto]. }
  constructor; unfold at_pc, with_pool, size; cbn [heap ptrs pool sem calls].
  - apply nodup_remove_nth, (P0 _ I).
  - intros q H. apply (P1 _ I). eapply in_remove_nth; eauto.
  - intros j d y q Y F. destruct (N _ _ _ Y) as [(-> & -> & ->)|[NE Y']].
    + cbn in F. injection F as <-. split; auto. apply (P1 _ I _ IP).
    + destruct (P2 _ I _ _ _ _ Y' F) as [A B]. split; auto. intros H. apply B. eapply in_remove_nth; eauto.
  - intros j k d e y z q Y Z F G. destruct (N _ _ _ Y) as [(-> & -> & ->)|[NE Y']], (N _ _ _ Z) as [(-> & -> & ->)|[NE' Z']]; auto.
    + cbn in F. injection F as <-. destruct (P2 _ I _ _ _ _ Z' G). contradiction.
    + cbn in G. injection G as <-. destruct (P2 _ I _ _ _ _ Y' F). contradiction.
    + exact (P3 _ I _ _ _ _ _ _ _ Y' Z' F G).
  - apply (P4 _ I).
  - apply (P4' _ I).
  - intros j d y a Y U. destruct (N _ _ _ Y) as [(-> & -> & ->)|[NE Y']]; [contradiction|exact (P5 _ I _ _ _ _ Y' U)].
  - intros j k d e y z a Y Z U V. destruct (N _ _ _ Y) as [(-> & -> & ->)|[NE Y']], (N _ _ _ Z) as [(-> & -> & ->)|[NE' Z']]; try contradiction; auto.
    exact (P6 _ I _ _ _ _ _ _ _ Y' Z' U V).
  - intros j d y Y. destruct (N _ _ _ Y) as [(-> & -> & ->)|[NE Y']]; [|exact (P7 _ I _ _ _ Y')]. split; [exact (proj1 (P7 _ I _ _ _ Q))|]. cbn. split; [discriminate|auto].
Qed.
Definition fresh_ptr (s : st) : st := St (heap s ++ [zeros 2048]) (ptrs s ++ [length (heap s)]) (pool s) (sem s) (calls s).
Lemma zeros_len n : length (zeros n) = n.
Proof. apply repeat_length. Qed.
Lemma inv_fresh s i c : inv s -> nth_error (calls s) i = Some (c, Start) -> inv (at_pc i c (Put (length (ptrs s)) false None) (fresh_ptr s)).
Proof.
  intros I Q.
  assert (forall j d y, nth_error (put i (c, Put (length (ptrs s)) false None) (calls s)) j = Some (d, y) -> (j = i /\ d = c /\ y = Put (length (ptrs s)) false None) \/ (j <> i /\ nth_error (calls s) j = Some (d, y))) as N.
  { intros j d y. rewrite (nth_put _ _ _ _ _ Q). destruct (Nat.eqb_spec i j) as [<-|NE]; [intros [= <- <-]; auto|auto]. }
  constructor; unfold at_pc, fresh_ptr, size; cbn [heap ptrs pool sem calls]; rewrite ?app_length; cbn [length].
  - apply (P0 _ I).
  - intros p H. pose proof (P1 _ I _ H). lia.
  - intros j d y q Y F. destruct (N _ _ _ Y) as [(-> & -> & ->)|[NE Y']].
    + cbn in F. injection F as <-. split; [lia|]. intros H. pose proof (P1 _ I _ H). lia.
    + destruct (P2 _ I _ _ _ _ Y' F) as [A B]. split; [lia|auto].
  - intros j k d e y z q Y Z F G. destruct (N _ _ _ Y) as [(-> & -> & ->)|[NE Y']], (N _ _ _ Z) as [(-> & -> & ->)|[NE' Z']]; auto.
    + cbn in F. injection F as <-. destruct (P2 _ I _ _ _ _ Z' G). lia.
    + cbn in G. injection G as <-. destruct (P2 _ I _ _ _ _ Y' F). lia.
    + exact (P3 _ I _ _ _ _ _ _ _ Y' Z' F G).
  - intros p q a E F. destruct (nth_new _ _ _ _ E) as [E'|[-> ->]], (nth_new _ _ _ _ F) as [F'|[G ->]]; auto.
    + exact (P4 _ I _ _ _ E' F').
    + subst. destruct (P4' _ I _ _ E'). lia.
    + destruct (P4' _ I _ _ F'). lia.
  - intros p a E. destruct (nth_new _ _ _ _ E) as [E'|[-> ->]].
    + destruct (P4' _ I _ _ E') as [A B]. rewrite app_nth1 by auto. split; [lia|exact B].
    + rewrite app_nth2, Nat.sub_diag by lia. cbn [nth]. rewrite zeros_len. split; lia.
  - intros j d y a Y U. destruct (N _ _ _ Y) as [(-> & -> & ->)|[NE Y']]; [contradiction|]. destruct (P5 _ I _ _ _ _ Y' U) as [A B]. split; [lia|].
    intros p E. destruct (nth_new _ _ _ _ E) as [E'|[-> ->]]; auto. lia.
  - intros j k d e y z a Y Z U V. destruct (N _ _ _ Y) as [(-> & -> & ->)|[NE Y']], (N _ _ _ Z) as [(-> & -> & ->)|[NE' Z']]; try contradiction; auto.
    exact (P6 _ I _ _ _ _ _ _ _ Y' Z' U V).
  - intros j d y Y. destruct (N _ _ _ Y) as [(-> & -> & ->)|[NE Y']].
    + split; [exact (proj1 (P7 _ I _ _ _ Q))|]. cbn. split; [discriminate|auto].
    + destruct (P7 _ I _ _ _ Y') as [A B]. split; auto. eapply data_frame; [|exact B]. intros a U. rewrite app_nth1; auto. exact (proj1 (P5 _ I _ _ _ _ Y' U)).
Qed.
(** From the pointer to packing *)
Lemma inv_begin s i c p : inv s -> nth_error (calls s) i = Some (c, Put p false None) -> inv (begin_pack i c p s).
Proof.
  intros I Q. destruct (P2 _ I _ _ _ _ Q eq_refl) as [LP _]. destruct (nth_error (ptrs s) p) as [a|] eqn:E; [|apply nth_error_None in E; lia].
  assert (target s p = a) as T by (unfold target; exact (nth_error_nth _ _ _ E)). destruct (P4' _ I _ _ E) as [LA SA].
  assert (inv (pack_to i c p a s)) as K.
  { unfold pack_to. destruct (Nat.leb_spec (offset c + need c) (size s a)) as [F|F].
    - eapply inv_at'; [exact I|exact Q|auto| |].
      + cbn. intros e U. right. exists p. assert (e = a) as -> by intuition. auto.
      + cbn. rewrite Nat.eqb_refl. unfold size in *. repeat split; auto; try lia. intros j L; lia.
    - eapply inv_alloc; [exact I|exact Q|auto| |].
      + cbn. intros e [<-|[<-|[]]]; [|auto]. right; right. eauto.
      + cbn. destruct (Nat.eqb_spec (length (heap s)) a); [lia|]. rewrite app_nth1 by auto. rewrite app_nth2, Nat.sub_diag by lia. cbn [nth]. rewrite zeros_len. unfold size in *.
        repeat split; auto; try lia. intros j L; lia. }
  unfold begin_pack. rewrite T. destruct (knd c); auto; destruct (Nat.ltb_spec (size s a) 10); auto; lia.
Qed.
Lemma begin_at s i c p x : begin_pack i c p (at_pc i c x s) = begin_pack i c p s.
Proof.
  unfold begin_pack, pack_to, target, size, at_pc, alloc; cbn [heap ptrs pool sem calls]. rewrite put_put.
  destruct (knd c); repeat (match goal with |- context [if ?b then _ else _] => destruct b end; cbn [heap ptrs pool sem calls]); rewrite ?put_put; auto.
Qed.

Lemma total_meant c : sound c -> total c = length (meant c).
Proof. intros (H & _). unfold total, offset, meant. destruct (knd c); rewrite ?app_length; lia. Qed.
Lemma holds_snoc h a o l k x : holds_at h a o l k -> nth_error l k = Some x -> a < length h -> o + k < length (nth a h []) ->
  holds_at (put a (put (o + k) x (nth a h [])) h) a o l (S k).
Proof.
  intros H E L LK j J. rewrite nth_put_d, Nat.eqb_refl by auto. rewrite nth_put_d by auto. destruct (Nat.eqb_spec (o + k) (o + j)) as [F|F].
  - assert (j = k) as -> by lia. symmetry. now apply nth_error_nth.
  - apply H. lia.
Qed.
Lemma holds_other h a e o l k y : holds_at h a o l k -> e < length h -> e <> a -> holds_at (put e y h) a o l k.
Proof. intros H L NE j J. rewrite nth_put_d by auto. destruct (Nat.eqb_spec e a); [contradiction|auto]. Qed.
Lemma holds_below h a o l k m x : holds_at h a o l k -> a < length h -> m < o -> m < length (nth a h []) -> holds_at (put a (put m x (nth a h [])) h) a o l k.
Proof. intros H L M LM j J. rewrite nth_put_d, Nat.eqb_refl by auto. rewrite nth_put_d by auto. destruct (Nat.eqb_spec m (o + j)); [lia|auto]. Qed.
Lemma holds_join h r l1 l2 : holds_at h r 0 l1 (length l1) -> holds_at h r (length l1) l2 (length l2) -> holds_at h r 0 (l1 ++ l2) (length (l1 ++ l2)).
Proof.
  intros A B j J. rewrite app_length in J. cbn [Nat.add]. destruct (Nat.lt_ge_cases j (length l1)) as [L|L].
  - rewrite app_nth1 by auto. exact (A j L).
  - rewrite app_nth2 by auto. rewrite <- (B (j - length l1)) by lia. f_equal. lia.
Qed.
Lemma firstn_snoc {A} (l : list A) k d : k < length l -> firstn k l ++ [nth k l d] = firstn (S k) l.
Proof. revert k; induction l as [|y l IH]; intros [|k] L; cbn in *; try lia; auto. now rewrite IH by lia. Qed.

Section STEP.
Variable cap : nat.
Lemma inv_step s l s' : inv s -> (forall c, l = New c -> sound c) -> step cap l s = Some s' -> inv s'.
Proof.
  intros I SO E. destruct l as [c|i n|i|n]; cbn [step] in E.
  - injection E as <-. specialize (SO c eq_refl).
    assert (forall j d y, nth_error (calls s ++ [(c, Start)]) j = Some (d, y) -> nth_error (calls s) j = Some (d, y) \/ (d = c /\ y = Start /\ j = length (calls s))) as N.
    { intros j d y Y. destruct (nth_new _ _ _ _ Y) as [?|[[= -> ->] ?]]; auto. }
    destruct I as [A0 A1 A2 A3 A4 A4' A5 A6 A7]. constructor; unfold size in *; cbn [heap ptrs pool sem calls] in *; auto.
    + intros j d y q Y F. destruct (N _ _ _ Y) as [Y'|(-> & -> & ->)]; [eauto|discriminate].
    + intros j k d e y z q Y Z F G. destruct (N _ _ _ Y) as [Y'|(-> & -> & ->)], (N _ _ _ Z) as [Z'|(-> & -> & ->)]; try discriminate; eauto.
    + intros j d y a Y U. destruct (N _ _ _ Y) as [Y'|(-> & -> & ->)]; [eauto|contradiction].
    + intros j k d e y z a Y Z U V. destruct (N _ _ _ Y) as [Y'|(-> & -> & ->)], (N _ _ _ Z) as [Z'|(-> & -> & ->)]; try contradiction; eauto.
    + intros j d y Y. destruct (N _ _ _ Y) as [Y'|(-> & -> & ->)]; [eauto|]. split; cbn; auto.
  - destruct (nth_error (calls s) i) as [[c x]|] eqn:Q; [|discriminate]. destruct x; try discriminate. destruct n as [n|].
    + destruct (nth_error (pool s) n) as [p|] eqn:P; [|discriminate]. injection E as <-. rewrite <- (begin_at _ _ _ _ (Put p false None)). apply inv_begin.
      * now apply inv_get.
      * unfold at_pc, with_pool; cbn [calls]. now rewrite (nth_put _ _ _ _ _ Q), Nat.eqb_refl.
    + injection E as <-. change (inv (begin_pack i c (length (ptrs s)) (fresh_ptr s))). rewrite <- (begin_at _ _ _ _ (Put (length (ptrs s)) false None)). apply inv_begin.
      * now apply inv_fresh.
      * unfold at_pc, fresh_ptr; cbn [calls]. now rewrite (nth_put _ _ _ _ _ Q), Nat.eqb_refl.
  - destruct (nth_error (calls s) i) as [[c x]|] eqn:Q; [|discriminate]. destruct (P7 _ I _ _ _ Q) as [SC D].
    destruct SC as (SH & SW & SN). assert (length (wire c) <> 0) as SW' by (destruct (wire c); [contradiction|discriminate]).
    destruct x as [|p b a k|p a r k|p r k|p r|p r|p r out|p b out|out|out|]; cbn [go] in E; try discriminate; match type of E with Some ?y = _ => assert (s' = y) as -> by congruence end; clear E; cbn [data] in D.
    + destruct D as (D1 & D2 & D3 & D4). destruct (nth_error (wire c) k) as [y|] eqn:W.
      * assert (k < length (wire c)) by (apply nth_error_Some; congruence). eapply inv_write; [exact I|exact Q|cbn; auto|auto|auto|]. cbn [data].
        assert (a < length (heap s)) as LA by (apply (P5 _ I _ _ _ _ Q); cbn; auto).
        assert (forall e, length (nth e (put a (put ((if a =? b then offset c else 0) + k) y (nth a (heap s) [])) (heap s)) []) = length (nth e (heap s) [])) as LE.
        { intros e. rewrite nth_put_d by auto. destruct (Nat.eqb_spec a e) as [->|]; [apply len_put|auto]. }
        rewrite !LE. repeat split; auto; try lia. apply holds_snoc; auto. lia.
      * apply nth_error_None in W. assert (k = length (wire c)) as -> by lia. destruct (fails c) eqn:F.
        { eapply inv_at'; [exact I|exact Q|auto|cbn; contradiction|]. cbn. split; [discriminate|auto]. }
        destruct (knd c) eqn:K.
        { eapply inv_at'; [exact I|exact Q|auto|cbn; intuition|]. cbn. split; auto. unfold meant, offset in *. rewrite K in *. split; [intros _; lia|]. now destruct (a =? b). }
        1-2: destruct (Nat.eqb_spec (length (wire c)) 0); [contradiction|]; destruct (Nat.leb_spec (size s b) 10) as [B|B]; [unfold size in B; lia|]; cbn [orb];
          destruct (Nat.eqb_spec a b) as [<-|NE];
          [ eapply inv_at'; [exact I|exact Q|auto|cbn; intuition|]; cbn; unfold offset in *; rewrite K in *; repeat split; auto; try congruence; try lia; intros j J; lia
          | assert (a < length (heap s)) as LA by (apply (P5 _ I _ _ _ _ Q); cbn; auto);
            eapply inv_alloc; [exact I|exact Q|auto|cbn; intuition|]; cbn [data]; rewrite (app_nth2 (heap s)), Nat.sub_diag by lia; cbn [nth]; rewrite zeros_len;
            repeat split; auto; try congruence; try lia; [intros j J; rewrite app_nth1 by auto; exact (D4 j J)|intros j J; lia] ].
    + destruct D as (D1 & D2 & D3 & D4 & D5 & D6 & D7). destruct (Nat.ltb_spec k (length (wire c))) as [L|L].
      * eapply inv_write; [exact I|exact Q|cbn; auto|auto|auto|]. cbn [data].
        assert (r < length (heap s)) as LR by (apply (P5 _ I _ _ _ _ Q); cbn; auto).
        rewrite nth_put_d, Nat.eqb_refl, len_put by auto. repeat split; auto; try lia.
        -- apply holds_other; auto.
        -- apply holds_snoc; auto; [|lia]. rewrite (D6 k L : nth k (nth a (heap s) []) 0%N = _). apply nth_error_nth'. auto.
      * assert (k = length (wire c)) as -> by lia. eapply inv_at'; [exact I|exact Q|auto|cbn; intuition|]. cbn. repeat split; auto; try lia. intros j J; lia.
    + destruct D as (D1 & D2 & D3 & D4 & D5 & D6). destruct (nth_error (header c) k) as [y|] eqn:W.
      * assert (k < length (header c)) by (apply nth_error_Some; congruence). eapply inv_write; [exact I|exact Q|cbn; auto|auto|auto|]. cbn [data].
        assert (r < length (heap s)) as LR by (apply (P5 _ I _ _ _ _ Q); cbn; auto).
        rewrite nth_put_d, Nat.eqb_refl, len_put by auto. repeat split; auto; try lia.
        -- apply holds_below; auto; lia.
        -- apply (holds_snoc _ _ 0); auto. lia.
      * apply nth_error_None in W. assert (k = length (header c)) as -> by lia. eapply inv_at'; [exact I|exact Q|auto|cbn; auto|]. cbn [data]. split; auto. split; [contradiction|].
        unfold meant. assert (holds_at (heap s) r 0 (header c ++ wire c) (length (header c ++ wire c))) as J by (apply holds_join; rewrite ?SH in *; auto). destruct (knd c); [contradiction|auto|auto].
    + destruct D as (D1 & _ & D2). set (s1 := if size s (target s p) <? size s r then aim p r s else s).
      assert (inv s1 /\ heap s1 = heap s /\ calls s1 = calls s) as (I1 & H1 & C1).
      { unfold s1. destruct (Nat.ltb_spec (size s (target s p)) (size s r)) as [L|L]; [|auto]. split; [|auto]. eapply inv_aim; eauto.
        destruct (P2 _ I _ _ _ _ Q eq_refl) as [LP _]. destruct (nth_error (ptrs s) p) as [e|] eqn:E; [|apply nth_error_None in E; lia].
        assert (target s p = e) as T by (unfold target; exact (nth_error_nth _ _ _ E)). destruct (P4' _ I _ _ E). rewrite T in L. lia. }
      rewrite <- C1 in Q. eapply inv_at'; [exact I1|exact Q| | |]; rewrite ?H1; destruct (knd c) eqn:K; cbn; auto; repeat split; auto; lia.
    + destruct D as (D0 & D1 & D2). destruct (sem s <? cap).
      * eapply inv_at; [exact I|exact Q|auto|cbn; auto|]. cbn. repeat split; auto; lia.
      * eapply inv_at'; [exact I|exact Q|auto|cbn; contradiction|]. cbn. split; [discriminate|auto].
    + destruct D as (D1 & D2 & D3 & D4). rewrite (total_meant c) by (repeat split; auto). destruct (Nat.ltb_spec (length out) (length (meant c))) as [L|L].
      * eapply inv_at'; [exact I|exact Q|auto|cbn; auto|]. cbn [data]. rewrite app_length; cbn [length]. repeat split; auto; try lia.
        rewrite (D2 _ L : nth (length out) (nth r (heap s) []) 0%N = _). rewrite D4 at 1. rewrite firstn_snoc by auto. f_equal. lia.
      * eapply inv_at'; [exact I|exact Q|auto|cbn; contradiction|]. cbn [data]. split; [destruct (knd c); auto; discriminate|]. split; auto. rewrite D4. apply firstn_all2. lia.
    + destruct D as (D1 & D2). unfold at_pc, with_pool; cbn [heap ptrs pool sem calls]. eapply inv_put; [exact I|exact Q| | |]; destruct b; cbn; auto.
    + destruct D as (D1 & D2). eapply inv_at; [exact I|exact Q|auto|cbn; contradiction|]. cbn. destruct out; auto.
  - destruct (n <? length (pool s)); [|discriminate]. injection E as <-. destruct I as [A0 A1 A2 A3 A4 A4' A5 A6 A7]. constructor; unfold with_pool, size in *; cbn [heap ptrs pool sem calls] in *; auto.
    + now apply nodup_remove_nth.
    + intros p H. apply A1. eapply in_remove_nth; eauto.
    + intros i c x p Q H. destruct (A2 _ _ _ _ Q H) as [B C]. split; auto. intros J. apply C. eapply in_remove_nth; eauto.
Qed.

Lemma run_app ls ls' s : run cap (ls ++ ls') s = match run cap ls s with Some t => run cap ls' t | None => None end.
Proof. revert s; induction ls as [|l ls IH]; intros s; cbn; auto. destruct (step cap l s); auto. Qed.
Lemma run_inv ls s s' : inv s -> made ls -> run cap ls s = Some s' -> inv s'.
Proof.
  revert s; induction ls as [|l ls IH]; intros s I M E; cbn in E; [congruence|]. destruct (step cap l s) as [t|] eqn:S; [|discriminate].
  apply (IH t); auto; [|intros c C; apply M; cbn; auto]. eapply inv_step; eauto. intros c ->. apply M. cbn; auto.
Qed.
Lemma reach_inv s : reachable cap s -> inv s.
Proof. intros (ls & M & E). exact (run_inv _ _ _ inv_init M E). Qed.
(** A property of a state that all steps keep *)
Lemma run_keeps (P : st -> Prop) : (forall s l s', P s -> step cap l s = Some s' -> P s') -> forall ls s s', P s -> run cap ls s = Some s' -> P s'.
Proof. intros K. induction ls as [|l ls IH]; intros s s' H E; cbn in E; [congruence|]. destruct (step cap l s) as [t|] eqn:S; [|discriminate]. eauto. Qed.

Lemma stored s i c v : reachable cap s -> nth_error (calls s) i = Some (c, Done (Some v)) -> v = meant c /\ fails c = false.
Proof. intros R Q. exact (proj2 (P7 _ (reach_inv _ R) _ _ _ Q)). Qed.
Lemma apart s : reachable cap s ->
  (forall i j c d x y a, nth_error (calls s) i = Some (c, x) -> nth_error (calls s) j = Some (d, y) -> i <> j -> In a (uses x) -> ~ In a (uses y)) /\
  (forall i c x a p, nth_error (calls s) i = Some (c, x) -> In a (uses x) -> In p (pool s) -> target s p <> a) /\
  NoDup (map (target s) (pool s)).
Proof.
  intros R. pose proof (reach_inv _ R) as I.
  assert (forall p, p < length (ptrs s) -> nth_error (ptrs s) p = Some (target s p)) as T by (intros p L; apply nth_error_nth'; auto).
  split; [|split].
  - intros i j c d x y a X Y NE U V. apply NE. exact (P6 _ I _ _ _ _ _ _ _ X Y U V).
  - intros i c x a p Q U H E. subst a. pose proof (proj2 (P5 _ I _ _ _ _ Q U) _ (T _ (P1 _ I _ H))) as F. destruct (P2 _ I _ _ _ _ Q F). contradiction.
  - assert (forall l, NoDup l -> (forall p, In p l -> p < length (ptrs s)) -> NoDup (map (target s) l)) as G.
    { induction l as [|p l IH]; intros ND B; cbn; constructor; inversion ND; subst.
      - intros H. apply in_map_iff in H as (q & E & H). assert (q = p) as -> by (apply (P4 _ I q p (target s p)); [rewrite <- E; apply T, B; cbn; auto|apply T, B; cbn; auto]). contradiction.
      - apply IH; auto. intros q H. apply B. cbn; auto. }
    apply G; [exact (P0 _ I)|exact (P1 _ I)].
Qed.
Lemma no_panic s i c : reachable cap s -> nth_error (calls s) i <> Some (c, Panic).
Proof. intros R Q. exact (proj2 (P7 _ (reach_inv _ R) _ _ _ Q)). Qed.
Lemma goes_on s i c x : reachable cap s -> nth_error (calls s) i = Some (c, x) -> ~ finished x -> exists l s', (l = Go i \/ l = Get i None) /\ step cap l s = Some s'.
Proof.
  intros R Q NF. destruct x; try (exists (Go i); cbn [step]; rewrite Q; cbn [go]; eexists; split; [auto|reflexivity]).
  - exists (Get i None). cbn [step]. rewrite Q. eexists; split; [auto|reflexivity].
  - exfalso. apply NF. exact Logic.I.
  - exfalso. exact (no_panic _ _ _ R Q).
Qed.

(** The places that steps lead to *)
Definition moved (s s' : st) (i : nat) (c : call) (x x' : pc) : Prop := nth_error (calls s) i = Some (c, x) /\ calls s' = put i (c, x') (calls s).
Lemma begin_moved s i c p : exists b a, calls (begin_pack i c p s) = put i (c, Pack p b a 0) (calls s) /\ sem (begin_pack i c p s) = sem s /\ pool (begin_pack i c p s) = pool s /\ ptrs (begin_pack i c p s) = ptrs s.
Proof.
  unfold begin_pack, pack_to, at_pc, alloc; destruct (knd c);
    repeat (match goal with |- context [if ?b then _ else _] => destruct b end); eexists; eexists; cbn [calls sem pool ptrs]; repeat split; reflexivity.
Qed.

(** A message that packs is not stored only by a write in the background *)
Definition skip_ok (s : st) : Prop := forall i c x, nth_error (calls s) i = Some (c, x) ->
  match x with
  | Put _ b None => b = false /\ (fails c = true \/ knd c = Async) | Done None => fails c = true \/ knd c = Async | Release None => False
  | Choose _ _ => knd c = Async
  | _ => True end.
Lemma skip_put s i c x h q pl n : skip_ok s -> (exists y, nth_error (calls s) i = Some (c, y)) ->
  (match x with Put _ b None => b = false /\ (fails c = true \/ knd c = Async) | Done None => fails c = true \/ knd c = Async | Release None => False | Choose _ _ => knd c = Async | _ => True end) ->
  skip_ok (St h q pl n (put i (c, x) (calls s))).
Proof.
  intros K (y & Q) X j d z. cbn [calls]. rewrite (nth_put _ _ _ _ _ Q). destruct (Nat.eqb_spec i j) as [<-|]; [intros [= <- <-]; exact X|apply K].
Qed.
Lemma skip_step s l s' : skip_ok s -> step cap l s = Some s' -> skip_ok s'.
Proof.
  intros K E. destruct l as [c|i n|i|n]; cbn [step] in E.
  - injection E as <-. intros j d y Y. cbn [calls] in Y. destruct (nth_new _ _ _ _ Y) as [Y'|[[= -> ->] _]]; [exact (K _ _ _ Y')|exact Logic.I].
  - destruct (nth_error (calls s) i) as [[c x]|] eqn:Q; [|discriminate]. destruct x; try discriminate.
    assert (forall t p, calls t = calls s -> skip_ok (begin_pack i c p t)) as G.
    { intros t p C. destruct (begin_moved t i c p) as (b & a & B & _). intros j d y. rewrite B, C, (nth_put _ _ _ _ _ Q). destruct (i =? j); [intros [= <- <-]; exact Logic.I|apply K]. }
    destruct n as [n|]; [destruct (nth_error (pool s) n); [|discriminate]|]; injection E as <-; apply G; reflexivity.
  - destruct (nth_error (calls s) i) as [[c x]|] eqn:Q; [|discriminate]. pose proof (K _ _ _ Q) as X.
    destruct x; cbn [go] in E; try discriminate; match type of E with Some ?y = _ => assert (s' = y) as -> by congruence end; clear E;
      repeat match goal with
        | |- context [match nth_error ?l ?k with _ => _ end] => destruct (nth_error l k)
        | |- context [if fails c then _ else _] => destruct (fails c) eqn:?
        | |- context [match knd c with _ => _ end] => destruct (knd c) eqn:?
        | |- context [if ?b then _ else _] => destruct b
        end; unfold at_pc, alloc, write, aim, with_pool, with_sem; cbn [heap ptrs pool sem calls]; apply skip_put; eauto; repeat (match goal with o : option _ |- _ => destruct o end); cbn in *; intuition (auto; discriminate).
  - destruct (n <? length (pool s)); [|discriminate]. injection E as <-. exact K.
Qed.
Lemma skipped s i c : reachable cap s -> nth_error (calls s) i = Some (c, Done None) -> fails c = true \/ knd c = Async.
Proof.
  intros (ls & _ & E) Q. assert (skip_ok s) as K. { eapply (run_keeps skip_ok skip_step); [|exact E]. intros [|j]; discriminate. }
  exact (K _ _ _ Q).
Qed.

(** The semaphore counts the writes in the background *)
Lemma filter_put (l : list (call * pc)) i y x : nth_error l i = Some y -> length (filter background (put i x l)) + (if background y then 1 else 0) = length (filter background l) + (if background x then 1 else 0).
Proof.
  revert i; induction l as [|z l IH]; intros [|i] H; try discriminate; cbn in *.
  - injection H as ->. destruct (background y), (background x); cbn; lia.
  - specialize (IH _ H). destruct (background z); cbn; lia.
Qed.
Definition sem_ok (s : st) : Prop := sem s = writers s /\ sem s <= cap /\
  forall i c x, nth_error (calls s) i = Some (c, x) -> match x with Choose _ _ | Release _ | Put _ true _ => knd c = Async | _ => True end.
Lemma sem_put s i c x y h q pl n : sem_ok s -> nth_error (calls s) i = Some (c, y) ->
  n + (if background (c, y) then 1 else 0) = sem s + (if background (c, x) then 1 else 0) -> n <= cap ->
  match x with Choose _ _ | Release _ | Put _ true _ => knd c = Async | _ => True end -> sem_ok (St h q pl n (put i (c, x) (calls s))).
Proof.
  intros (A & B & C) Q N L X. split; [|split]; cbn [sem]; auto.
  - pose proof (filter_put _ _ _ (c, x) Q) as F. unfold writers in *; cbn [calls]. lia.
  - intros j d z. cbn [calls]. rewrite (nth_put _ _ _ _ _ Q). destruct (Nat.eqb_spec i j) as [<-|]; [intros [= <- <-]; exact X|apply C].
Qed.
Lemma sem_step s l s' : sem_ok s -> step cap l s = Some s' -> sem_ok s'.
Proof.
  intros K E. pose proof K as (KA & KB & KC). destruct l as [c|i n|i|n]; cbn [step] in E.
  - injection E as <-. split; [|split]; cbn [sem calls]; auto.
    + unfold writers in *; cbn [calls]. rewrite filter_app, app_length. cbn. unfold background at 2; cbn. destruct (knd c); cbn; lia.
    + intros j d y Y. destruct (nth_new _ _ _ _ Y) as [Y'|[[= -> ->] _]]; [exact (KC _ _ _ Y')|exact Logic.I].
  - destruct (nth_error (calls s) i) as [[c x]|] eqn:Q; [|discriminate]. destruct x; try discriminate.
    assert (forall t p, calls t = calls s -> sem t = sem s -> sem_ok (begin_pack i c p t)) as G.
    { intros t p C S. destruct (begin_moved t i c p) as (b & a & B & B2 & _). destruct (begin_pack i c p t) as [h q pl m cl]. cbn in B, B2. subst. rewrite C, S. eapply sem_put; eauto; cbn; destruct (knd c); lia. }
    destruct n as [n|]; [destruct (nth_error (pool s) n); [|discriminate]|]; injection E as <-; apply G; reflexivity.
  - destruct (nth_error (calls s) i) as [[c x]|] eqn:Q; [|discriminate]. pose proof (KC _ _ _ Q) as X.
    assert (background (c, x) = true -> 0 < sem s) as POS.
    { intros H. rewrite KA. unfold writers. apply nth_error_In in Q. destruct (filter background (calls s)) eqn:F; [|cbn; lia]. assert (In (c, x) []) as [] . rewrite <- F. now apply filter_In. }
    destruct x; cbn [go] in E; try discriminate; match type of E with Some ?y = _ => assert (s' = y) as -> by congruence end; clear E;
      repeat match goal with
        | |- context [match nth_error ?l ?k with _ => _ end] => destruct (nth_error l k)
        | |- context [if fails c then _ else _] => destruct (fails c)
        | |- context [sem s <? cap] => destruct (Nat.ltb_spec (sem s) cap)
        | |- context [match knd c with _ => _ end] => destruct (knd c) eqn:?
        | |- context [if ?b then _ else _] => destruct b
        end; unfold at_pc, alloc, write, aim, with_pool, with_sem; cbn [heap ptrs pool sem calls]; (eapply sem_put; [exact K|exact Q| | |]);
      unfold background in *; cbn [fst snd] in *; try (rewrite ?X in * ); repeat match goal with H : knd c = _ |- _ => rewrite H in * end; try destruct (knd c); cbn in *; auto; try discriminate; try (specialize (POS eq_refl)); try lia.
  - destruct (n <? length (pool s)); [|discriminate]. injection E as <-. exact K.
Qed.
Lemma reach_sem s : reachable cap s -> sem_ok s.
Proof. intros (ls & _ & E). eapply (run_keeps sem_ok sem_step); [|exact E]. split; [reflexivity|split; [cbn; lia|intros [|j]; discriminate]]. Qed.
Lemma limit s : reachable cap s -> writers s <= cap /\ sem s = writers s.
Proof. intros R. destruct (reach_sem _ R) as (A & B & _). lia. Qed.
Lemma skip_full s i c p r : reachable cap s -> nth_error (calls s) i = Some (c, Choose p r) -> exists s', step cap (Go i) s = Some s' /\
  nth_error (calls s') i = Some (c, if writers s =? cap then Put p false None else Read p r []).
Proof.
  intros R Q. destruct (limit _ R) as [L E]. cbn [step]. rewrite Q. cbn [go]. eexists; split; [reflexivity|]. rewrite E.
  destruct (Nat.ltb_spec (writers s) cap), (Nat.eqb_spec (writers s) cap); try lia; unfold at_pc, with_sem; cbn [calls]; now rewrite (nth_put _ _ _ _ _ Q), Nat.eqb_refl.
Qed.

(** The steps that a call has left *)
Definition left (c : call) (x : pc) : nat :=
  let w := length (wire c) in
  match x with
  | Start => 3 * w + 30
  | Pack _ _ _ k => 3 * w + 29 - k
  | Move _ _ _ k => 2 * w + 28 - k
  | Head _ _ k => w + 26 - k
  | Adopt _ _ => w + 15
  | Choose _ _ => w + 14
  | Read _ _ out => w + 13 - length out
  | Put _ _ _ => 2
  | Release _ => 1
  | Done _ | Panic => 0
  end.
Lemma left_go s i c x s' : inv s -> nth_error (calls s) i = Some (c, x) -> step cap (Go i) s = Some s' -> exists x', calls s' = put i (c, x') (calls s) /\ left c x' < left c x.
Proof.
  intros I Q E. destruct (P7 _ I _ _ _ Q) as [SC D]. pose proof (total_meant _ SC) as TM. destruct SC as (SH & SW & SN). cbn [step] in E. rewrite Q in E.
  destruct x; cbn [go] in E; try discriminate; match type of E with Some ?y = _ => assert (s' = y) as -> by congruence end; clear E; cbn [data] in D;
    repeat match goal with
      | |- context [match nth_error ?l ?k with _ => _ end] => let W := fresh "W" in destruct (nth_error l k) eqn:W; [assert (k < length l) by (apply nth_error_Some; congruence)|apply nth_error_None in W]
      | |- context [if fails c then _ else _] => destruct (fails c)
      | |- context [?a <? ?b] => destruct (Nat.ltb_spec a b)
      | |- context [match knd c with _ => _ end] => destruct (knd c) eqn:?
      | |- context [if ?b then _ else _] => destruct b
      end; unfold at_pc, alloc, write, aim, with_pool, with_sem; cbn [heap ptrs pool sem calls]; (eexists; split; [reflexivity|]); cbn [left]; rewrite ?app_length; cbn [length]; unfold total, offset in *; repeat match goal with H : knd c = _ |- _ => rewrite H in * end; try destruct (knd c); try lia.
Qed.
Lemma steps_snoc i ls l : steps_of i (ls ++ [l]) = steps_of i ls + steps_of i [l].
Proof. induction ls as [|m ls IH]; cbn [app]; [reflexivity|]. destruct m; cbn [steps_of app] in *; lia. Qed.
Lemma bounded_inv ls s : made ls -> run cap ls init = Some s ->
  (forall i c x, nth_error (calls s) i = Some (c, x) -> steps_of i ls + left c x <= 3 * length (wire c) + 30) /\ (forall i, length (calls s) <= i -> steps_of i ls = 0).
Proof.
  revert s; induction ls as [|l ls IH] using rev_ind; intros s M E; [injection E as <-; split; [intros [|j]; discriminate|reflexivity]|].
  rewrite run_app in E. destruct (run cap ls init) as [t|] eqn:R; [|discriminate]. cbn [run] in E. destruct (step cap l t) as [s1|] eqn:S; [|discriminate]. assert (s1 = s) as -> by congruence. clear E.
  assert (made ls) as M' by (intros c H; apply M, in_or_app; auto). destruct (IH t M' eq_refl) as [A B]. pose proof (run_inv _ _ _ inv_init M' R) as I.
  assert (forall i c x x', nth_error (calls t) i = Some (c, x) -> calls s = put i (c, x') (calls t) -> left c x' < left c x -> (forall j, steps_of j [l] = if j =? i then 1 else 0) ->
    (forall i c x, nth_error (calls s) i = Some (c, x) -> steps_of i (ls ++ [l]) + left c x <= 3 * length (wire c) + 30) /\ (forall i, length (calls s) <= i -> steps_of i (ls ++ [l]) = 0)) as G.
  { intros i c x x' Q C L K. rewrite C. split.
    - intros j d y. rewrite (nth_put _ _ _ _ _ Q), steps_snoc, K, (Nat.eqb_sym j i). destruct (Nat.eqb_spec i j) as [<-|NE]; intros Y.
      + assert (d = c /\ y = x') as [-> ->] by (split; congruence). specialize (A _ _ _ Q). lia.
      + specialize (A _ _ _ Y). lia.
    - intros j. rewrite len_put, steps_snoc, K. intros LJ. rewrite (B _ LJ). assert (i < length (calls t)) by (apply nth_error_Some; congruence). destruct (Nat.eqb_spec j i); lia. }
  destruct l as [c|i n|i|n].
  - cbn [step] in S. injection S as <-. cbn [calls]. split.
    + intros j d y Y. rewrite steps_snoc. destruct (nth_new _ _ _ _ Y) as [Y'|[[= -> ->] ->]]; cbn [steps_of]; [specialize (A _ _ _ Y'); lia|]. rewrite (B _ (le_n _)). cbn [left]. lia.
    + intros j. rewrite app_length, steps_snoc. cbn. intros L. rewrite B by lia. lia.
  - cbn [step] in S. destruct (nth_error (calls t) i) as [[c x]|] eqn:Q; [|discriminate]. destruct x; try discriminate.
    assert (exists b a p, calls s = put i (c, Pack p b a 0) (calls t)) as (b & a & p & C).
    { destruct n as [n|]; [destruct (nth_error (pool t) n) as [p|]; [|discriminate]|]; match type of S with Some (begin_pack _ _ ?p ?t1) = _ => destruct (begin_moved t1 i c p) as (b & a & C & _); exists b, a, p end;
        match type of S with Some ?y = _ => assert (s = y) as -> by congruence end; exact C. }
    eapply (G i c Start _ Q C); [cbn [left]; lia|]. intros j. cbn. destruct (j =? i); reflexivity.
  - assert (exists c x, nth_error (calls t) i = Some (c, x)) as (c & x & Q) by (cbn [step] in S; destruct (nth_error (calls t) i) as [[c x]|]; [eauto|discriminate]).
    destruct (left_go _ _ _ _ _ I Q S) as (x' & C & L). eapply (G i c x _ Q C L). intros j. cbn. destruct (j =? i); reflexivity.
  - cbn [step] in S. destruct (n <? length (pool t)); [|discriminate]. injection S as <-. cbn [with_pool calls]. split; intros; rewrite steps_snoc; cbn [steps_of]; rewrite Nat.add_0_r; auto.
Qed.
Lemma bounded ls s i c x : made ls -> run cap ls init = Some s -> nth_error (calls s) i = Some (c, x) -> steps_of i ls <= 3 * length (wire c) + 30.
Proof. intros M E Q. pose proof (proj1 (bounded_inv _ _ M E) _ _ _ Q). lia. Qed.

(** No pointer is lost *)
Definition kept (s : st) : Prop := forall p, p < length (ptrs s) -> In p (pool s) \/ exists i c x, nth_error (calls s) i = Some (c, x) /\ holds x = Some p.
Lemma kept_put s i c x x' h q pl n : kept s -> nth_error (calls s) i = Some (c, x) -> length q = length (ptrs s) ->
  (forall p, In p (pool s) -> In p pl \/ holds x' = Some p) -> (forall p, holds x = Some p -> In p pl \/ holds x' = Some p) -> kept (St h q pl n (put i (c, x') (calls s))).
Proof.
  intros K Q L A B p. cbn [ptrs pool calls]. rewrite L. intros LP.
  assert (holds x' = Some p -> exists j d y, nth_error (put i (c, x') (calls s)) j = Some (d, y) /\ holds y = Some p) as H.
  { intros H. exists i, c, x'. now rewrite (nth_put _ _ _ _ _ Q), Nat.eqb_refl. }
  destruct (K p LP) as [P|(j & d & y & Y & P)]; [destruct (A _ P); auto|]. destruct (Nat.eq_dec i j) as [<-|NE].
  - assert (y = x) as -> by congruence. destruct (B _ P); auto.
  - right. exists j, d, y. rewrite (nth_put _ _ _ _ _ Q). destruct (Nat.eqb_spec i j); [contradiction|auto].
Qed.
Lemma kept_step s l s' : inv s -> kept s -> (forall n, l <> Drop n) -> step cap l s = Some s' -> kept s'.
Proof.
  intros I K ND E. destruct l as [c|i n|i|n]; cbn [step] in E.
  - injection E as <-. intros p L. destruct (K p L) as [P|(j & d & y & Y & P)]; [auto|]. right. exists j, d, y. cbn [calls]. split; auto. rewrite nth_error_app1; auto. apply nth_error_Some. congruence.
  - destruct (nth_error (calls s) i) as [[c x]|] eqn:Q; [|discriminate]. destruct x; try discriminate. destruct n as [n|].
    + destruct (nth_error (pool s) n) as [p|] eqn:P; [|discriminate]. match type of E with Some ?y = _ => assert (s' = y) as -> by congruence end.
      destruct (begin_moved (with_pool (remove_nth n (pool s)) s) i c p) as (b & a & C & _ & PL & PT). destruct (begin_pack _ _ _ _) as [h q pl m cl]. cbn in C, PL, PT. subst.
      eapply kept_put; eauto; [|cbn; discriminate]. intros q H. cbn. apply (Permutation_in _ (perm_remove_nth _ _ _ P)) in H. destruct H as [<-|H]; auto.
    + match type of E with Some (begin_pack _ _ _ ?t1) = _ => destruct (begin_moved t1 i c (length (ptrs s))) as (b & a & C & _ & PL & PT) end.
      match type of E with Some ?y = _ => assert (s' = y) as -> by congruence end. destruct (begin_pack _ _ _ _) as [h q pl m cl]. cbn in C, PL, PT. subst.
      intros p. cbn [ptrs pool calls]. rewrite app_length; cbn. intros L. destruct (Nat.eq_dec p (length (ptrs s))) as [->|NE].
      * right. exists i, c, (Pack (length (ptrs s)) b a 0). now rewrite (nth_put _ _ _ _ _ Q), Nat.eqb_refl.
      * destruct (K p) as [P|(j & d & y & Y & P)]; [lia|auto|]. right. exists j, d, y. rewrite (nth_put _ _ _ _ _ Q). destruct (Nat.eqb_spec i j) as [<-|]; auto. exfalso. rewrite Q in Y. injection Y as <- <-. discriminate.
  - destruct (nth_error (calls s) i) as [[c x]|] eqn:Q; [|discriminate]. destruct (P7 _ I _ _ _ Q) as [(SH & SW & SN) D].
    assert (wire c <> []) as _ by auto. assert (length (wire c) =? 0 = false) as W0 by (destruct (wire c); [contradiction|reflexivity]).
    destruct x; cbn [go] in E; try discriminate; match type of E with Some ?y = _ => assert (s' = y) as -> by congruence end; clear E; cbn [data] in D; rewrite ?W0; cbn [orb];
      repeat match goal with
        | |- context [match nth_error ?l ?k with _ => _ end] => destruct (nth_error l k)
        | |- context [if fails c then _ else _] => destruct (fails c)
        | |- context [size s ?b <=? 10] => destruct (Nat.leb_spec (size s b) 10); [unfold size in *; lia|]
        | |- context [match knd c with _ => _ end] => destruct (knd c)
        | |- context [if ?b then _ else _] => destruct b
        end; unfold at_pc, alloc, write, aim, with_pool, with_sem; cbn [heap ptrs pool sem calls];
      (eapply kept_put; [exact K|exact Q|rewrite ?len_put; reflexivity|cbn; auto|cbn; intros ? [= <-]; auto]).
  - exfalso. eapply ND; reflexivity.
Qed.
Lemma kept_run ls s : made ls -> no_drop ls -> run cap ls init = Some s -> kept s.
Proof.
  revert s; induction ls as [|l ls IH] using rev_ind; intros s M N E; [injection E as <-; intros p L; cbn in L; lia|].
  rewrite run_app in E. destruct (run cap ls init) as [t|] eqn:R; [|discriminate]. cbn [run] in E. destruct (step cap l t) as [s1|] eqn:S; [|discriminate]. assert (s1 = s) as -> by congruence.
  assert (made ls) as M' by (intros c H; apply M, in_or_app; auto). eapply kept_step; [exact (run_inv _ _ _ inv_init M' R)| | |exact S].
  - apply IH; auto. intros n H. apply (N n), in_or_app; auto.
  - intros n ->. apply (N n), in_or_app; cbn; auto.
Qed.
Lemma all_back ls s : made ls -> no_drop ls -> run cap ls init = Some s -> (forall i c x, nth_error (calls s) i = Some (c, x) -> finished x) -> Permutation (pool s) (seq 0 (length (ptrs s))).
Proof.
  intros M N E F. pose proof (kept_run _ _ M N E) as K. pose proof (run_inv _ _ _ inv_init M E) as I. apply NoDup_Permutation; [exact (P0 _ I)|apply seq_NoDup|].
  intros p. rewrite in_seq. split.
  - intros H. pose proof (P1 _ I _ H). lia.
  - intros [_ L]. destruct (K p) as [H|(i & c & x & Q & H)]; [lia|auto|]. specialize (F _ _ _ Q). destruct x; try contradiction. discriminate.
Qed.

(** The buffer of a pointer does not shrink *)
Lemma target_nth s p : p < length (ptrs s) -> nth_error (ptrs s) p = Some (target s p).
Proof. apply nth_error_nth'. Qed.
Lemma grows_heap s s' p : inv s -> p < length (ptrs s) -> ptrs s' = ptrs s -> (forall a, a < length (heap s) -> size s' a = size s a) -> p < length (ptrs s') /\ size s (target s p) <= size s' (target s' p).
Proof. intros I L P H. unfold target. rewrite P. split; auto. rewrite H; auto. exact (proj1 (P4' _ I _ _ (target_nth _ _ L))). Qed.
Lemma size_alloc s n a : a < length (heap s) -> size (alloc n s) a = size s a.
Proof. intros L. unfold size, alloc; cbn [heap]. now rewrite app_nth1. Qed.
Lemma size_write s e k b a : e < length (heap s) -> size (write e k b s) a = size s a.
Proof. intros L. unfold size, write; cbn [heap]. rewrite nth_put_d by auto. destruct (Nat.eqb_spec e a) as [->|]; [apply len_put|auto]. Qed.
Lemma begin_size s i c p a : a < length (heap s) -> size (begin_pack i c p s) a = size s a.
Proof.
  intros L. unfold begin_pack, pack_to; destruct (knd c); repeat (match goal with |- context [if ?b then _ else _] => destruct b end);
    unfold size, at_pc, alloc; cbn [heap]; rewrite ?app_nth1; rewrite ?app_length; cbn; auto; lia.
Qed.
Lemma grows s l s' p : inv s -> step cap l s = Some s' -> p < length (ptrs s) -> p < length (ptrs s') /\ size s (target s p) <= size s' (target s' p).
Proof.
  intros I E L. destruct l as [c|i n|i|n]; cbn [step] in E.
  - injection E as <-. apply grows_heap; auto.
  - destruct (nth_error (calls s) i) as [[c x]|] eqn:Q; [|discriminate]. destruct x; try discriminate. destruct n as [n|].
    + destruct (nth_error (pool s) n) as [q|] eqn:P; [|discriminate]. match type of E with Some ?y = _ => assert (s' = y) as -> by congruence end.
      destruct (begin_moved (with_pool (remove_nth n (pool s)) s) i c q) as (b & a & _ & _ & _ & PT). apply grows_heap; auto. intros e LE. now rewrite begin_size.
    + match type of E with Some ?y = _ => assert (s' = y) as -> by congruence end. set (t := St _ _ _ _ _).
      destruct (begin_moved t i c (length (ptrs s))) as (b & a & _ & _ & _ & PT). pose proof (proj1 (P4' _ I _ _ (target_nth _ _ L))) as LA.
      unfold target. rewrite PT. unfold t at 1 2 3; cbn [ptrs]. rewrite app_length, app_nth1 by auto. split; [cbn; lia|].
      fold (target s p). rewrite begin_size by (unfold t; cbn [heap]; rewrite app_length; lia). unfold t, size; cbn [heap]. now rewrite app_nth1.
  - destruct (nth_error (calls s) i) as [[c x]|] eqn:Q; [|discriminate].
    pose proof (fun a H => proj1 (P5 _ I _ _ _ a Q H)) as U.
    destruct x as [|q b a k|q a r k|q r k|q r|q r|q r out|q b out|out|out|]; cbn [go] in E; try discriminate; match type of E with Some ?y = _ => assert (s' = y) as -> by congruence end; clear E; cbn [uses] in U.
    4: { destruct (P2 _ I _ _ _ _ Q eq_refl) as [LQ _]. destruct (Nat.ltb_spec (size s (target s q)) (size s r)) as [G|G]; [|apply grows_heap; auto].
         unfold at_pc, aim, size, target; cbn [ptrs heap]. rewrite len_put, nth_put_d by auto. split; auto. destruct (Nat.eqb_spec q p) as [->|]; [unfold size, target in G; lia|auto]. }
    all: repeat match goal with
        | |- context [match nth_error ?l ?k with _ => _ end] => destruct (nth_error l k)
        | |- context [if fails ?d then _ else _] => destruct (fails d)
        | |- context [match knd ?d with _ => _ end] => destruct (knd d)
        | |- context [at_pc _ _ (if ?b then _ else _) _] => destruct b
        | |- context [if ?b then at_pc _ _ _ _ else _] => destruct b
        end; apply grows_heap; auto; intros e LE;
      first [ reflexivity | refine (size_alloc _ _ _ _); assumption | match goal with |- context [write ?w ?k ?b ?t] => apply (size_write t w k b); apply U; cbn; auto end ].
  - destruct (n <? length (pool s)); [|discriminate]. injection E as <-. apply grows_heap; auto.
Qed.
Lemma grows_run ls s s' p : inv s -> made ls -> run cap ls s = Some s' -> p < length (ptrs s) -> p < length (ptrs s') /\ size s (target s p) <= size s' (target s' p).
Proof.
  revert s; induction ls as [|l ls IH]; intros s I M E L; cbn in E; [injection E as <-; auto|]. destruct (step cap l s) as [t|] eqn:S; [|discriminate].
  destruct (grows _ _ _ _ I S L) as [A B]. assert (inv t) as J by (eapply inv_step; eauto; intros c ->; apply M; cbn; auto).
  destruct (IH t J) as [C D]; auto; [intros c H; apply M; cbn; auto|]. split; auto; lia.
Qed.

Lemma grown s p : reachable cap s -> p < length (ptrs s) -> 2048 <= size s (target s p).
Proof. intros R L. exact (proj2 (P4' _ (reach_inv _ R) _ _ (target_nth _ _ L))). Qed.
Lemma grown_run s ls s' p : reachable cap s -> made ls -> run cap ls s = Some s' -> p < length (ptrs s) -> size s (target s p) <= size s' (target s' p).
Proof. intros R M E L. exact (proj2 (grows_run _ _ _ _ (reach_inv _ R) M E L)). Qed.
Lemma adapts s i c p r s1 ls s2 n j d : reachable cap s -> nth_error (calls s) i = Some (c, Adopt p r) -> knd c = Memory -> step cap (Go i) s = Some s1 ->
  made ls -> run cap ls s1 = Some s2 -> nth_error (pool s2) n = Some p -> nth_error (calls s2) j = Some (d, Start) -> offset d + need d <= need c ->
  exists s3, step cap (Get j (Some n)) s2 = Some s3 /\ heap s3 = heap s2 /\ nth_error (calls s3) j = Some (d, Pack p (target s2 p) (target s2 p) 0).
Proof.
  intros R Q K S M E P J F. pose proof (reach_inv _ R) as I. pose proof (inv_step _ _ _ I (fun c (H : Go i = New c) => ltac:(discriminate H)) S) as I1.
  destruct (P2 _ I _ _ _ _ Q eq_refl) as [LP _]. destruct (grows _ _ _ _ I S LP) as [LP1 G1]. pose proof (proj2 (P7 _ I _ _ _ Q)) as (_ & D & _). specialize (D K).
  assert (need c <= size s1 (target s1 p)) as N1.
  { cbn [step] in S. rewrite Q in S. cbn [go] in S. match type of S with Some ?y = _ => assert (s1 = y) as -> by congruence end. destruct (Nat.ltb_spec (size s (target s p)) (size s r)) as [L|L].
    - unfold at_pc, aim, size, target; cbn [heap ptrs]. rewrite nth_put_d, Nat.eqb_refl by auto. exact D.
    - unfold at_pc, size, target in *; cbn [heap ptrs]. lia. }
  destruct (grows_run _ _ _ _ I1 M E LP1) as [LP2 G2]. pose proof (run_inv _ _ _ I1 M E) as I2. pose proof (proj2 (P4' _ I2 _ _ (target_nth _ _ LP2))) as B.
  cbn [step]. rewrite J, P. eexists; split; [reflexivity|]. unfold begin_pack. change (target (with_pool (remove_nth n (pool s2)) s2) p) with (target s2 p). set (t := with_pool (remove_nth n (pool s2)) s2).
  change (size t (target s2 p)) with (size s2 (target s2 p)). assert (pack_to j d p (target s2 p) t = at_pc j d (Pack p (target s2 p) (target s2 p) 0) t) as T.
  { unfold pack_to. change (size t (target s2 p)) with (size s2 (target s2 p)). destruct (Nat.leb_spec (offset d + need d) (size s2 (target s2 p))); [auto|lia]. }
  assert (nth_error (calls (at_pc j d (Pack p (target s2 p) (target s2 p) 0) t)) j = Some (d, Pack p (target s2 p) (target s2 p) 0)) as C by (unfold at_pc, t, with_pool; cbn [calls]; now rewrite (nth_put _ _ _ _ _ J), Nat.eqb_refl).
  destruct (knd d); [|destruct (Nat.ltb_spec (size s2 (target s2 p)) 10); [lia|]..]; rewrite T; split; auto.
Qed.
Lemma too_small s i c p a r k : reachable cap s -> nth_error (calls s) i = Some (c, Move p a r k) -> size s r < offset c + need c.
Proof.
  intros R Q. destruct (P7 _ (reach_inv _ R) _ _ _ Q) as [(_ & _ & SN) D]. cbn [data] in D. destruct D as (K & _ & _ & _ & D & _). unfold size, offset. destruct (knd c); [contradiction|lia|lia].
Qed.
End STEP.
