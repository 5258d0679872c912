(** Atomic replacement of files: the invariant of the system of writers. *)
From Verif Require Import Base Bytes AtomicFile_model AtomicFile_spec.
From Coq Require Import ZArith ZifyBool ZifyNat ZifyN.
Open Scope N_scope.

Lemma path_eqb_eq a b : path_eqb a b = true <-> a = b.
Proof. unfold path_eqb. rewrite andb_true_iff, !String.eqb_eq. destruct a, b; cbn. split; [intros [-> ->]; reflexivity|intros [= -> ->]; auto]. Qed.
Lemma path_eqb_refl a : path_eqb a a = true. Proof. apply path_eqb_eq. reflexivity. Qed.
Lemma path_eqb_neq a b : a <> b -> path_eqb a b = false.
Proof. intros H. destruct (path_eqb a b) eqn:E; [|reflexivity]. apply path_eqb_eq in E. contradiction. Qed.
Lemma path_dec (a b : path) : {a = b} + {a <> b}.
Proof. destruct (path_eqb a b) eqn:E; [left; apply path_eqb_eq, E|right; intros ->; rewrite path_eqb_refl in E; discriminate E]. Qed.
Lemma lookup_unlink_same p d : lookup p (unlink p d) = None.
Proof. unfold unlink. induction d as [|[x i] d IH]; [reflexivity|]. cbn. destruct (path_eqb x p) eqn:E; cbn; [exact IH|]. rewrite E. exact IH. Qed.
Lemma lookup_unlink_other p q d : p <> q -> lookup p (unlink q d) = lookup p d.
Proof.
  intros H. unfold unlink. induction d as [|[x i] d IH]; [reflexivity|]. cbn. destruct (path_eqb x q) eqn:E; cbn.
  - apply path_eqb_eq in E. subst x. rewrite (path_eqb_neq q p) by congruence. exact IH.
  - destruct (path_eqb x p); [reflexivity|exact IH].
Qed.
Lemma lookup_link_same p i d : lookup p (link p i d) = Some i.
Proof. cbn. rewrite path_eqb_refl. reflexivity. Qed.
Lemma lookup_link_other p q i d : p <> q -> lookup p (link q i d) = lookup p d.
Proof. intros H. cbn [lookup link]. rewrite (path_eqb_neq q p) by congruence. apply lookup_unlink_other, H. Qed.
Lemma length_upd i g l : length (upd i g l) = length l.
Proof. revert i. induction l as [|n l IH]; intros [|i]; cbn; auto. Qed.
Lemma nth_upd_same i g l n : nth_error l i = Some n -> nth_error (upd i g l) i = Some (g n).
Proof. revert i. induction l as [|x l IH]; intros [|i] H; try discriminate H; cbn in *; [congruence|apply IH, H]. Qed.
Lemma nth_upd_other i j g l : i <> j -> nth_error (upd i g l) j = nth_error l j.
Proof. revert i j. induction l as [|x l IH]; intros [|i] [|j] H; cbn; auto; try lia. Qed.
Lemma nth_mid {A} (l1 : list A) x l2 : nth_error (l1 ++ x :: l2) (length l1) = Some x.
Proof. rewrite nth_error_app2 by lia. rewrite Nat.sub_diag. reflexivity. Qed.
Lemma nth_mid_other {A} (l1 : list A) x y l2 k : k <> length l1 -> nth_error (l1 ++ x :: l2) k = nth_error (l1 ++ y :: l2) k.
Proof.
  intros H. destruct (Nat.lt_ge_cases k (length l1)) as [L|L]; [rewrite !nth_error_app1 by lia; reflexivity|]. rewrite !nth_error_app2 by lia. destruct (k - length l1)%nat eqn:E; [lia|reflexivity].
Qed.
Lemma land511 m : N.land (N.land m 511) 511 = N.land m 511.
Proof. rewrite <- N.land_assoc. reflexivity. Qed.

Section INV.
Variable size : nat.
Variable ws : list writer.
Variable f0 : fs.
Hypothesis Q : quiet f0.
Hypothesis targets : forall w, In w ws -> is_tmp (w_target w) = false.

Definition tmp_of (c : pc) : option path := match c with At t _ _ => Some t | Remove t _ => Some t | _ => None end.
Definition kept (f : fs) (d : dir) (p : path) : Prop :=
  lookup p d = lookup p (f_dir f0) /\ forall i, lookup p d = Some i -> nth_error (f_nodes f) i = nth_error (f_nodes f0) i.
Definition renewed (f : fs) (ps : list pc) (d : dir) (p : path) : Prop :=
  exists i n k w c, lookup p d = Some i /\ nth_error (f_nodes f) i = Some n /\ n_safe n = true /\ N.land (n_mode n) 511 = perm f0 p /\ n_data n = List.concat (w_chunks w) /\
    nth_error ws k = Some w /\ nth_error ps k = Some c /\ committed c /\ w_target w = p /\ w_fails w = false.
Definition local (f : fs) (w : writer) (c : pc) : Prop :=
  match c with
  | At _ i s => exists n, nth_error (f_nodes f) i = Some n /\
      match s with
      | Stat => n_mode n = 384 /\ n_data n = []
      | Chmod m => N.land m 511 = perm f0 (w_target w) /\ n_data n = []
      | Fill buf chunks => N.land (n_mode n) 511 = perm f0 (w_target w) /\ n_data n ++ buf ++ List.concat chunks = List.concat (w_chunks w)
      | Flush buf => N.land (n_mode n) 511 = perm f0 (w_target w) /\ n_data n ++ buf = List.concat (w_chunks w) /\ w_fails w = false
      | Sync => N.land (n_mode n) 511 = perm f0 (w_target w) /\ n_data n = List.concat (w_chunks w) /\ w_fails w = false
      | Close | Rename => N.land (n_mode n) 511 = perm f0 (w_target w) /\ n_data n = List.concat (w_chunks w) /\ w_fails w = false /\ n_safe n = true
      end
  | _ => True
  end.
Record inv (f : fs) (ps : list pc) : Prop := {
  i_range : forall d p i, f_dir f = d \/ In d (f_old f) -> lookup p d = Some i -> (i < length (f_nodes f))%nat;
  i_good : forall d p, f_dir f = d \/ In d (f_old f) -> is_tmp p = false -> kept f d p \/ renewed f ps d p;
  i_own : forall k t i s, nth_error ps k = Some (At t i s) -> (i < length (f_nodes f))%nat /\ (lookup t (f_dir f) = None \/ lookup t (f_dir f) = Some i) /\
            forall d p, f_dir f = d \/ In d (f_old f) -> lookup p d = Some i -> p = t;
  i_tmp : forall k c t, nth_error ps k = Some c -> tmp_of c = Some t -> is_tmp t = true /\ In t (f_used f);
  i_dist : forall k k' c c' t, nth_error ps k = Some c -> nth_error ps k' = Some c' -> tmp_of c = Some t -> tmp_of c' = Some t -> k = k';
  i_node : forall k k' t t' i s s', nth_error ps k = Some (At t i s) -> nth_error ps k' = Some (At t' i s') -> k = k';
  i_local : forall k w c, nth_error ws k = Some w -> nth_error ps k = Some c -> local f w c;
  i_left : forall p i, lookup p (f_dir f) = Some i -> is_tmp p = true -> lookup p (f_dir f0) <> None \/
             exists k c, nth_error ps k = Some c /\ (tmp_of c = Some p \/ exists e, c = Done e (Some p));
  i_last : forall k w c, nth_error ws k = Some w -> nth_error ps k = Some c -> committed c -> renewed f ps (f_dir f) (w_target w) }.

Lemma at_not_committed t i s : ~ committed (At t i s).
Proof. intros [(x & H)|(x & H)]; discriminate H. Qed.
Lemma remove_not_committed t : ~ committed (Remove t true).
Proof. intros [(x & H)|(x & H)]; discriminate H. Qed.

(** Steps of a writer that only change its own file *)
Lemma inv_local f f' p1 p2 t i s c' :
  inv f (p1 ++ At t i s :: p2) ->
  f_dir f' = f_dir f -> f_old f' = f_old f -> f_used f' = f_used f -> length (f_nodes f') = length (f_nodes f) -> (forall j, j <> i -> nth_error (f_nodes f') j = nth_error (f_nodes f) j) ->
  (exists s', c' = At t i s') \/ c' = Remove t true ->
  (forall w, nth_error ws (length p1) = Some w -> local f' w c') ->
  inv f' (p1 ++ c' :: p2).
Proof.
  intros I ED EO EU EL EN C' LO. set (k := length p1) in *. assert (NK : nth_error (p1 ++ At t i s :: p2) k = Some (At t i s)) by apply nth_mid.
  assert (NC : ~ committed c') by (destruct C' as [(s' & ->)| ->]; [apply at_not_committed|apply remove_not_committed]).
  assert (TC : tmp_of c' = Some t) by (destruct C' as [(s' & ->)| ->]; reflexivity).
  assert (NM : nth_error (p1 ++ c' :: p2) k = Some c') by apply nth_mid.
  assert (NO : forall j, j <> k -> nth_error (p1 ++ c' :: p2) j = nth_error (p1 ++ At t i s :: p2) j) by (intros j NJ; apply nth_mid_other, NJ).
  assert (RN : forall d p, f_dir f = d \/ In d (f_old f) -> is_tmp p = false -> renewed f (p1 ++ At t i s :: p2) d p -> renewed f' (p1 ++ c' :: p2) d p).
  { intros d p ID TP (j & n & k1 & w & c & E1 & E2 & E3 & E4 & E5 & E6 & E7 & E8 & E9). exists j, n, k1, w, c. split; [exact E1|]. split.
    - rewrite EN; [exact E2|]. intros ->. pose proof (proj2 (proj2 (i_own _ _ I _ _ _ _ NK)) d p ID E1) as ->. destruct (i_tmp _ _ I _ _ _ NK eq_refl) as [X _]. congruence.
    - repeat (split; [assumption|]). split; [|auto]. rewrite NO; [exact E7|]. intros ->. rewrite NK in E7. injection E7 as <-. exact (at_not_committed _ _ _ E8). }
  constructor; rewrite ?ED, ?EO, ?EU, ?EL.
  - apply (i_range _ _ I).
  - intros d p ID TP. destruct (i_good _ _ I d p ID TP) as [[A B]|R]; [left|right; apply RN; assumption]. split; [exact A|]. intros j Ej. rewrite EN; [apply B, Ej|].
    intros ->. pose proof (proj2 (proj2 (i_own _ _ I _ _ _ _ NK)) d p ID Ej) as ->. destruct (i_tmp _ _ I _ _ _ NK eq_refl) as [X _]. congruence.
  - intros k1 t1 i1 s1 E. destruct (Nat.eq_dec k1 k) as [->|NE]; [|rewrite NO in E by exact NE; exact (i_own _ _ I _ _ _ _ E)]. rewrite NM in E. injection E as ->.
    cbn in TC. injection TC as ->. destruct C' as [(s' & H)|H]; [|discriminate H]. injection H as -> ->. exact (i_own _ _ I _ _ _ _ NK).
  - intros k1 c t1 E T. destruct (Nat.eq_dec k1 k) as [->|NE]; [|rewrite NO in E by exact NE; exact (i_tmp _ _ I _ _ _ E T)]. rewrite NM in E. injection E as <-. apply (i_tmp _ _ I _ _ t1 NK). cbn. congruence.
  - intros k1 k2 c1 c2 t1 E1 E2 T1 T2. destruct (Nat.eq_dec k1 k) as [->|N1]; destruct (Nat.eq_dec k2 k) as [->|N2]; [reflexivity| | |].
    + rewrite NM in E1. injection E1 as <-. rewrite NO in E2 by exact N2. apply (i_dist _ _ I k k2 _ _ t1 NK E2); [cbn; congruence|exact T2].
    + rewrite NM in E2. injection E2 as <-. rewrite NO in E1 by exact N1. apply (i_dist _ _ I k1 k _ _ t1 E1 NK); [exact T1|cbn; congruence].
    + rewrite NO in E1 by exact N1. rewrite NO in E2 by exact N2. exact (i_dist _ _ I k1 k2 _ _ t1 E1 E2 T1 T2).
  - intros k1 k2 t1 t2 i1 s1 s2 E1 E2. assert (G : forall k3 t3 i3 s3, nth_error (p1 ++ c' :: p2) k3 = Some (At t3 i3 s3) -> exists s4, nth_error (p1 ++ At t i s :: p2) k3 = Some (At t3 i3 s4)).
    { intros k3 t3 i3 s3 E. destruct (Nat.eq_dec k3 k) as [->|NE]; [|rewrite NO in E by exact NE; eauto]. rewrite NM in E. injection E as ->. destruct C' as [(s' & H)|H]; [|discriminate H]. injection H as -> -> ->. eauto. }
    destruct (G _ _ _ _ E1) as (x & X). destruct (G _ _ _ _ E2) as (y & Y). exact (i_node _ _ I _ _ _ _ _ _ _ X Y).
  - intros k1 w c EW E. destruct (Nat.eq_dec k1 k) as [->|NE]; [rewrite NM in E; injection E as <-; apply LO, EW|]. rewrite NO in E by exact NE. pose proof (i_local _ _ I _ _ _ EW E) as L. destruct c as [|t1 i1 s1|t1 e1|e1 l1]; try exact L.
    cbn in *. rewrite EN; [exact L|]. intros ->. apply NE, (i_node _ _ I _ _ _ _ _ _ _ E NK).
  - intros p j E T. destruct (i_left _ _ I p j E T) as [H|(k1 & c & E1 & H)]; [left; exact H|right]. destruct (Nat.eq_dec k1 k) as [->|NE].
    + rewrite NK in E1. injection E1 as <-. destruct H as [H|(e & H)]; [|discriminate H]. exists k, c'. split; [exact NM|]. left. cbn in H. congruence.
    + exists k1, c. rewrite NO by exact NE. auto.
  - intros k1 w c EW E CM. destruct (Nat.eq_dec k1 k) as [->|NE]; [rewrite NM in E; injection E as <-; contradiction|]. rewrite NO in E by exact NE. apply RN; [left; reflexivity|apply targets; apply (nth_error_In _ _ EW)|]. exact (i_last _ _ I _ _ _ EW E CM).
Qed.

Lemma kept_more f f' d p : (forall i, (i < length (f_nodes f))%nat -> nth_error (f_nodes f') i = nth_error (f_nodes f) i) -> (forall i, lookup p d = Some i -> (i < length (f_nodes f))%nat) -> kept f d p -> kept f' d p.
Proof. intros H R [A B]. split; [exact A|]. intros i E. rewrite H; [apply B, E|apply R, E]. Qed.
Lemma renewed_more f f' ps ps' d p : (forall i n, nth_error (f_nodes f) i = Some n -> nth_error (f_nodes f') i = Some n) -> (forall k c, nth_error ps k = Some c -> committed c -> exists c', nth_error ps' k = Some c' /\ committed c') ->
  renewed f ps d p -> renewed f' ps' d p.
Proof.
  intros H P (j & n & k & w & c & E1 & E2 & E3 & E4 & E5 & E6 & E7 & E8 & E9). destruct (P k c E7 E8) as (c' & E7' & E8'). exists j, n, k, w, c'. split; [exact E1|]. split; [apply H, E2|]. repeat (split; [assumption|]). auto.
Qed.
Lemma renewed_dir f ps d d' p : lookup p d' = lookup p d -> renewed f ps d p -> renewed f ps d' p.
Proof. intros E (j & n & k & w & c & E1 & R). exists j, n, k, w, c. rewrite E. auto. Qed.

(** Removing a temporary name, as the last step of a writer or by somebody else *)
Lemma inv_unlink f ps t ps' :
  inv f ps -> is_tmp t = true ->
  ps' = ps \/ (exists p1 p2 e, ps = p1 ++ Remove t e :: p2 /\ ps' = p1 ++ Done e None :: p2) ->
  inv (set_dir (unlink t (f_dir f)) f) ps'.
Proof.
  intros I T P.
  assert (AT : forall k t1 i1 s1, nth_error ps' k = Some (At t1 i1 s1) -> nth_error ps k = Some (At t1 i1 s1)).
  { destruct P as [->|(p1 & p2 & e & -> & ->)]; [auto|]. intros k t1 i1 s1 E. destruct (Nat.eq_dec k (length p1)) as [->|NE]; [rewrite nth_mid in E; discriminate E|]. rewrite <- E. apply nth_mid_other, NE. }
  assert (TM : forall k c t1, nth_error ps' k = Some c -> tmp_of c = Some t1 -> nth_error ps k = Some c).
  { destruct P as [->|(p1 & p2 & e & -> & ->)]; [auto|]. intros k c t1 E X. destruct (Nat.eq_dec k (length p1)) as [->|NE]; [rewrite nth_mid in E; injection E as <-; discriminate X|]. rewrite <- E. apply nth_mid_other, NE. }
  assert (CM : forall k c, nth_error ps k = Some c -> committed c -> exists c', nth_error ps' k = Some c' /\ committed c').
  { destruct P as [->|(p1 & p2 & e & -> & ->)]; [eauto|]. intros k c E X. destruct (Nat.eq_dec k (length p1)) as [->|NE].
    - rewrite nth_mid in E. injection E as <-. rewrite nth_mid. eexists. split; [reflexivity|]. destruct X as [(x & [= -> ->])|(x & X)]; [right; eauto|discriminate X].
    - exists c. split; [|exact X]. rewrite <- E. apply nth_mid_other, NE. }
  assert (CM' : forall k c, nth_error ps' k = Some c -> committed c -> exists c', nth_error ps k = Some c' /\ committed c').
  { destruct P as [->|(p1 & p2 & e & -> & ->)]; [eauto|]. intros k c E X. destruct (Nat.eq_dec k (length p1)) as [->|NE].
    - rewrite nth_mid in E. injection E as <-. rewrite nth_mid. eexists. split; [reflexivity|]. destruct X as [(x & X)|(x & [= -> _])]; [discriminate X|left; eauto].
    - exists c. split; [|exact X]. rewrite <- E. apply nth_mid_other, NE. }
  assert (NT : forall p, is_tmp p = false -> lookup p (unlink t (f_dir f)) = lookup p (f_dir f)) by (intros p TP; apply lookup_unlink_other; congruence).
  assert (LS : forall p i, lookup p (unlink t (f_dir f)) = Some i -> p <> t /\ lookup p (f_dir f) = Some i).
  { intros p i E. destruct (path_dec p t) as [->|NE]; [rewrite lookup_unlink_same in E; discriminate E|]. rewrite lookup_unlink_other in E by exact NE. auto. }
  assert (MO : forall i n, nth_error (f_nodes f) i = Some n -> nth_error (f_nodes (set_dir (unlink t (f_dir f)) f)) i = Some n) by (cbn; auto).
  constructor; cbn [set_dir f_dir f_old f_nodes f_used].
  - intros d p i [<-|[<-|ID]] E; [apply LS in E; apply (i_range _ _ I (f_dir f) p i); tauto|apply (i_range _ _ I (f_dir f) p i); auto|apply (i_range _ _ I d p i); auto].
  - assert (G : forall d p, f_dir f = d \/ In d (f_old f) -> is_tmp p = false -> kept (set_dir (unlink t (f_dir f)) f) d p \/ renewed (set_dir (unlink t (f_dir f)) f) ps' d p).
    { intros d p ID TP. destruct (i_good _ _ I d p ID TP) as [K|R]; [left; exact K|right; apply (renewed_more _ _ _ _ _ _ MO CM R)]. }
    intros d p [<-|[<-|ID]] TP; [|apply G; auto|apply G; auto]. destruct (G (f_dir f) p (or_introl eq_refl) TP) as [[A B]|R]; [left|right; apply (renewed_dir _ _ (f_dir f)); [apply NT, TP|exact R]].
    split; [rewrite NT by exact TP; exact A|]. intros i. rewrite NT by exact TP. apply B.
  - intros k t1 i s E. apply AT in E. destruct (i_own _ _ I _ _ _ _ E) as (IL & A & B). split; [exact IL|]. split.
    + destruct (path_dec t1 t) as [->|NE]; [left; apply lookup_unlink_same|]. rewrite lookup_unlink_other by exact NE. exact A.
    + intros d p [<-|[<-|ID]] L; [apply LS in L; apply (B (f_dir f)); tauto|apply (B (f_dir f)); auto|apply (B d); auto].
  - intros k c t1 E X. exact (i_tmp _ _ I _ _ _ (TM _ _ _ E X) X).
  - intros k k' c c' t1 E E' X X'. exact (i_dist _ _ I _ _ _ _ _ (TM _ _ _ E X) (TM _ _ _ E' X') X X').
  - intros k k' t1 t2 i s s' E E'. exact (i_node _ _ I _ _ _ _ _ _ _ (AT _ _ _ _ E) (AT _ _ _ _ E')).
  - intros k w c EW E. destruct c as [|t1 i1 s1|t1 e1|e1 l1]; try exact Logic.I. apply AT in E. exact (i_local _ _ I _ _ _ EW E).
  - intros p i E X. destruct (LS _ _ E) as [NE E']. destruct (i_left _ _ I p i E' X) as [H|(k & c & EC & H)]; [left; exact H|right]. destruct P as [->|(p1 & p2 & e & -> & ->)]; [eauto|].
    exists k, c. split; [|exact H]. rewrite <- EC. apply nth_mid_other. intros ->. rewrite nth_mid in EC. injection EC as <-. destruct H as [H|(e' & H)]; [cbn in H; congruence|discriminate H].
  - intros k w c EW E X. destruct (CM' _ _ E X) as (c' & E' & X'). pose proof (i_last _ _ I _ _ _ EW E' X') as R. apply (renewed_dir _ _ (f_dir f)); [apply NT, targets, (nth_error_In _ _ EW)|]. apply (renewed_more _ _ _ _ _ _ MO CM R).
Qed.

Lemma inv_create f p1 p2 t w : inv f (p1 ++ Create :: p2) -> nth_error ws (length p1) = Some w -> is_tmp t = true -> lookup t (f_dir f) = None -> ~ In t (f_used f) ->
  inv (FS ((t, length (f_nodes f)) :: f_dir f) (f_nodes f ++ [Node 384 [] false]) (f_dir f :: f_old f) (t :: f_used f)) (p1 ++ At t (length (f_nodes f)) Stat :: p2).
Proof.
  intros I EW T NL NU. set (f' := FS _ _ _ _). set (i0 := length (f_nodes f)) in *. set (k := length p1) in *. assert (NK : nth_error (p1 ++ Create :: p2) k = Some Create) by apply nth_mid.
  set (ps' := p1 ++ At t i0 Stat :: p2). assert (NM : nth_error ps' k = Some (At t i0 Stat)) by apply nth_mid.
  assert (NO : forall j, j <> k -> nth_error ps' j = nth_error (p1 ++ Create :: p2) j) by (intros j NJ; apply nth_mid_other, NJ).
  assert (ND : forall i n, nth_error (f_nodes f) i = Some n -> nth_error (f_nodes f') i = Some n) by (intros i n E; cbn; rewrite nth_error_app1; [exact E|apply nth_error_Some; congruence]).
  assert (ND' : forall i, (i < length (f_nodes f))%nat -> nth_error (f_nodes f') i = nth_error (f_nodes f) i) by (intros i L; cbn; apply nth_error_app1, L).
  assert (CM : forall j c, nth_error (p1 ++ Create :: p2) j = Some c -> committed c -> exists c', nth_error ps' j = Some c' /\ committed c').
  { intros j c E X. destruct (Nat.eq_dec j k) as [->|NE]; [rewrite NK in E; injection E as <-; destruct X as [(x & X)|(x & X)]; discriminate X|]. exists c. rewrite NO by exact NE. auto. }
  assert (LO : forall p, p <> t -> lookup p (f_dir f') = lookup p (f_dir f)) by (intros p NE; cbn; rewrite (path_eqb_neq t p) by congruence; reflexivity).
  assert (LT : lookup t (f_dir f') = Some i0) by (cbn; rewrite path_eqb_refl; reflexivity).
  assert (RG : forall d p i, f_dir f = d \/ In d (f_old f) -> lookup p d = Some i -> (i < i0)%nat) by (intros d p i ID E; exact (i_range _ _ I d p i ID E)).
  constructor.
  - intros d p i ID E. cbn. rewrite app_length. cbn. destruct ID as [<-|[<-|ID]].
    + destruct (path_dec p t) as [->|NE]; [rewrite LT in E; injection E as <-; unfold i0; lia|]. rewrite LO in E by exact NE. pose proof (RG (f_dir f) p i (or_introl eq_refl) E). unfold i0 in *. lia.
    + pose proof (RG (f_dir f) p i (or_introl eq_refl) E). unfold i0 in *. lia.
    + pose proof (RG d p i (or_intror ID) E). unfold i0 in *. lia.
  - assert (G : forall d p, f_dir f = d \/ In d (f_old f) -> is_tmp p = false -> kept f' d p \/ renewed f' ps' d p).
    { intros d p ID TP. destruct (i_good _ _ I d p ID TP) as [K|R]; [left; apply (kept_more f); [exact ND'|intros i E; exact (RG d p i ID E)|exact K]|right; apply (renewed_more _ _ _ _ _ _ ND CM R)]. }
    intros d p [<-|[<-|ID]] TP; [|apply G; auto|apply G; auto]. assert (NE : p <> t) by congruence. destruct (G (f_dir f) p (or_introl eq_refl) TP) as [[A B]|R]; [left|right; apply (renewed_dir _ _ (f_dir f)); [apply LO, NE|exact R]].
    split; [rewrite LO by exact NE; exact A|]. intros i. rewrite LO by exact NE. apply B.
  - intros k1 t1 i s E. destruct (Nat.eq_dec k1 k) as [->|NE].
    + rewrite NM in E. injection E as <- <- <-. split; [cbn; rewrite app_length; cbn; unfold i0; lia|]. split; [right; exact LT|]. intros d p ID L. destruct (path_dec p t) as [->|NE]; [reflexivity|]. exfalso. destruct ID as [<-|[<-|ID]].
      * rewrite LO in L by exact NE. pose proof (RG (f_dir f) p i0 (or_introl eq_refl) L). lia.
      * pose proof (RG (f_dir f) p i0 (or_introl eq_refl) L). lia.
      * pose proof (RG d p i0 (or_intror ID) L). lia.
    + rewrite NO in E by exact NE. destruct (i_own _ _ I _ _ _ _ E) as (IL & A & B). assert (N1 : t1 <> t) by (intros ->; apply NU, (i_tmp _ _ I _ _ t E eq_refl)). split; [cbn; rewrite app_length; lia|]. split; [rewrite LO by exact N1; exact A|].
      intros d p ID L. destruct ID as [<-|[<-|ID]]; [|apply (B (f_dir f)); auto|apply (B d); auto].
      destruct (path_dec p t) as [->|NE2]; [rewrite LT in L; injection L as <-; unfold i0 in IL; lia|]. rewrite LO in L by exact NE2. apply (B (f_dir f)); auto.
  - intros k1 c t1 E X. destruct (Nat.eq_dec k1 k) as [->|NE]; [rewrite NM in E; injection E as <-; cbn in X; injection X as <-; split; [exact T|left; reflexivity]|]. rewrite NO in E by exact NE. destruct (i_tmp _ _ I _ _ _ E X). split; [assumption|right; assumption].
  - intros k1 k2 c1 c2 t1 E1 E2 T1 T2. destruct (Nat.eq_dec k1 k) as [->|N1]; destruct (Nat.eq_dec k2 k) as [->|N2]; [reflexivity| | |].
    + rewrite NM in E1. injection E1 as <-. rewrite NO in E2 by exact N2. cbn in T1. injection T1 as <-. exfalso. apply NU, (i_tmp _ _ I _ _ _ E2 T2).
    + rewrite NM in E2. injection E2 as <-. rewrite NO in E1 by exact N1. cbn in T2. injection T2 as <-. exfalso. apply NU, (i_tmp _ _ I _ _ _ E1 T1).
    + rewrite NO in E1 by exact N1. rewrite NO in E2 by exact N2. exact (i_dist _ _ I k1 k2 _ _ t1 E1 E2 T1 T2).
  - intros k1 k2 t1 t2 i1 s1 s2 E1 E2. destruct (Nat.eq_dec k1 k) as [->|N1]; destruct (Nat.eq_dec k2 k) as [->|N2]; [reflexivity| | |].
    + rewrite NM in E1. injection E1 as <- <- <-. rewrite NO in E2 by exact N2. destruct (i_own _ _ I _ _ _ _ E2) as (IL & _). unfold i0 in IL. lia.
    + rewrite NM in E2. injection E2 as <- <- <-. rewrite NO in E1 by exact N1. destruct (i_own _ _ I _ _ _ _ E1) as (IL & _). unfold i0 in IL. lia.
    + rewrite NO in E1 by exact N1. rewrite NO in E2 by exact N2. exact (i_node _ _ I _ _ _ _ _ _ _ E1 E2).
  - intros k1 w1 c EW1 E. destruct (Nat.eq_dec k1 k) as [->|NE].
    + rewrite NM in E. injection E as <-. cbn. exists (Node 384 [] false). split; [unfold i0; apply nth_mid|]. auto.
    + rewrite NO in E by exact NE. pose proof (i_local _ _ I _ _ _ EW1 E) as L. destruct c as [|t1 i1 s1|t1 e1|e1 l1]; try exact Logic.I. destruct L as (n & En & L). exists n. split; [apply ND, En|exact L].
  - intros p i E X. destruct (path_dec p t) as [->|NE]; [right; exists k, (At t i0 Stat); auto|]. rewrite LO in E by exact NE. destruct (i_left _ _ I p i E X) as [H|(k1 & c & EC & H)]; [left; exact H|right].
    exists k1, c. split; [|exact H]. rewrite NO; [exact EC|]. intros ->. rewrite NK in EC. injection EC as <-. destruct H as [H|(e & H)]; discriminate H.
  - intros k1 w1 c EW1 E X. destruct (Nat.eq_dec k1 k) as [->|NE]; [rewrite NM in E; injection E as <-; destruct (at_not_committed _ _ _ X)|]. rewrite NO in E by exact NE. pose proof (i_last _ _ I _ _ _ EW1 E X) as R.
    apply (renewed_dir _ _ (f_dir f)); [|apply (renewed_more _ _ _ _ _ _ ND CM R)]. apply LO. intros EQ. pose proof (targets _ (nth_error_In _ _ EW1)) as TT. rewrite EQ in TT. congruence.
Qed.

Lemma inv_rename f p1 p2 t i w : inv f (p1 ++ At t i Rename :: p2) -> nth_error ws (length p1) = Some w -> lookup t (f_dir f) = Some i ->
  inv (set_dir (link (w_target w) i (unlink t (f_dir f))) f) (p1 ++ Remove t false :: p2).
Proof.
  intros I EW EL. set (f' := set_dir _ f). set (k := length p1) in *. set (g := w_target w) in *. assert (NK : nth_error (p1 ++ At t i Rename :: p2) k = Some (At t i Rename)) by apply nth_mid.
  set (ps' := p1 ++ Remove t false :: p2). assert (NM : nth_error ps' k = Some (Remove t false)) by apply nth_mid.
  assert (NO : forall j, j <> k -> nth_error ps' j = nth_error (p1 ++ At t i Rename :: p2) j) by (intros j NJ; apply nth_mid_other, NJ).
  assert (T : is_tmp t = true) by apply (i_tmp _ _ I _ _ t NK eq_refl). assert (TG : is_tmp g = false) by apply (targets _ (nth_error_In _ _ EW)). assert (GT : g <> t) by congruence.
  assert (CM : forall j c, nth_error (p1 ++ At t i Rename :: p2) j = Some c -> committed c -> exists c', nth_error ps' j = Some c' /\ committed c').
  { intros j c E X. destruct (Nat.eq_dec j k) as [->|NE]; [rewrite NK in E; injection E as <-; destruct (at_not_committed _ _ _ X)|]. exists c. rewrite NO by exact NE. auto. }
  assert (LG : lookup g (f_dir f') = Some i) by apply lookup_link_same.
  assert (LT : lookup t (f_dir f') = None) by (cbn [f' set_dir f_dir]; rewrite lookup_link_other by congruence; apply lookup_unlink_same).
  assert (LO : forall p, p <> t -> p <> g -> lookup p (f_dir f') = lookup p (f_dir f)) by (intros p N1 N2; cbn [f' set_dir f_dir]; rewrite lookup_link_other by congruence; apply lookup_unlink_other, N1).
  assert (LS : forall p j, lookup p (f_dir f') = Some j -> (p = g /\ j = i) \/ (p <> t /\ p <> g /\ lookup p (f_dir f) = Some j)).
  { intros p j E. destruct (path_dec p g) as [->|N1]; [rewrite LG in E; injection E as <-; auto|]. destruct (path_dec p t) as [->|N2]; [congruence|]. rewrite LO in E by assumption. auto. }
  assert (RW : renewed f' ps' (f_dir f') g).
  { destruct (i_local _ _ I _ _ _ EW NK) as (n & En & MO & DA & FA & SA). exists i, n, k, w, (Remove t false). repeat (split; [assumption|]). split; [left; eauto|]. auto. }
  assert (ND : forall j n, nth_error (f_nodes f) j = Some n -> nth_error (f_nodes f') j = Some n) by (cbn; auto).
  assert (RG : forall d p j, f_dir f' = d \/ In d (f_old f') -> lookup p d = Some j -> (j < length (f_nodes f))%nat).
  { intros d p j [<-|[<-|ID]] E; [|exact (i_range _ _ I (f_dir f) p j (or_introl eq_refl) E)|exact (i_range _ _ I d p j (or_intror ID) E)].
    destruct (LS _ _ E) as [[-> ->]|(_ & _ & E')]; [exact (i_range _ _ I (f_dir f) t i (or_introl eq_refl) EL)|exact (i_range _ _ I (f_dir f) p j (or_introl eq_refl) E')]. }
  constructor.
  - exact RG.
  - assert (G : forall d p, f_dir f = d \/ In d (f_old f) -> is_tmp p = false -> kept f' d p \/ renewed f' ps' d p).
    { intros d p ID TP. destruct (i_good _ _ I d p ID TP) as [K|R]; [left; exact K|right; apply (renewed_more _ _ _ _ _ _ ND CM R)]. }
    intros d p [<-|[<-|ID]] TP; [|apply G; auto|apply G; auto]. destruct (path_dec p g) as [->|N1]; [right; exact RW|]. assert (NE : p <> t) by congruence. destruct (G (f_dir f) p (or_introl eq_refl) TP) as [[A B]|R]; [left|right; apply (renewed_dir _ _ (f_dir f)); [apply LO; assumption|exact R]].
    split; [rewrite LO by assumption; exact A|]. intros j. rewrite LO by assumption. apply B.
  - intros k1 t1 j s E. destruct (Nat.eq_dec k1 k) as [->|NE]; [rewrite NM in E; discriminate E|]. rewrite NO in E by exact NE. destruct (i_own _ _ I _ _ _ _ E) as (IL & A & B). split; [exact IL|].
    assert (N1 : t1 <> t) by (intros ->; apply NE, (i_dist _ _ I _ _ _ _ t E NK); reflexivity). assert (N2 : t1 <> g) by (intros ->; destruct (i_tmp _ _ I _ _ g E eq_refl); congruence).
    split; [rewrite LO by assumption; exact A|]. intros d p [<-|[<-|ID]] L; [|apply (B (f_dir f)); auto|apply (B d); auto]. destruct (LS _ _ L) as [[-> ->]|(_ & _ & L')]; [|apply (B (f_dir f)); auto].
    exfalso. apply NE, (i_node _ _ I _ _ _ _ _ _ _ E NK).
  - intros k1 c t1 E X. destruct (Nat.eq_dec k1 k) as [->|NE]; [|rewrite NO in E by exact NE; exact (i_tmp _ _ I _ _ _ E X)]. rewrite NM in E. injection E as <-. cbn in X. injection X as <-. exact (i_tmp _ _ I _ _ _ NK eq_refl).
  - intros k1 k2 c1 c2 t1 E1 E2 T1 T2. assert (G : forall k3 c3, nth_error ps' k3 = Some c3 -> tmp_of c3 = Some t1 -> exists c4, nth_error (p1 ++ At t i Rename :: p2) k3 = Some c4 /\ tmp_of c4 = Some t1).
    { intros k3 c3 E X. destruct (Nat.eq_dec k3 k) as [->|NE]; [|rewrite NO in E by exact NE; eauto]. rewrite NM in E. injection E as <-. eauto. }
    destruct (G _ _ E1 T1) as (x & X1 & X2). destruct (G _ _ E2 T2) as (y & Y1 & Y2). exact (i_dist _ _ I _ _ _ _ _ X1 Y1 X2 Y2).
  - intros k1 k2 t1 t2 i1 s1 s2 E1 E2. destruct (Nat.eq_dec k1 k) as [->|N1]; [rewrite NM in E1; discriminate E1|]. destruct (Nat.eq_dec k2 k) as [->|N2]; [rewrite NM in E2; discriminate E2|]. rewrite NO in E1 by exact N1. rewrite NO in E2 by exact N2. exact (i_node _ _ I _ _ _ _ _ _ _ E1 E2).
  - intros k1 w1 c EW1 E. destruct (Nat.eq_dec k1 k) as [->|NE]; [rewrite NM in E; injection E as <-; exact Logic.I|]. rewrite NO in E by exact NE. exact (i_local _ _ I _ _ _ EW1 E).
  - intros p j E X. destruct (LS _ _ E) as [[-> ->]|(N1 & N2 & E')]; [congruence|]. destruct (i_left _ _ I p j E' X) as [H|(k1 & c & EC & H)]; [left; exact H|right]. exists k1, c. split; [|exact H]. rewrite NO; [exact EC|].
    intros ->. rewrite NK in EC. injection EC as <-. destruct H as [H|(e & H)]; [cbn in H; congruence|discriminate H].
  - intros k1 w1 c EW1 E X. destruct (path_dec (w_target w1) g) as [->|N1]; [exact RW|]. destruct (Nat.eq_dec k1 k) as [->|NE]; [unfold g in N1; congruence|]. rewrite NO in E by exact NE. pose proof (i_last _ _ I _ _ _ EW1 E X) as R.
    apply (renewed_dir _ _ (f_dir f)); [apply LO; [|exact N1]|apply (renewed_more _ _ _ _ _ _ ND CM R)]. pose proof (targets _ (nth_error_In _ _ EW1)). congruence.
Qed.

(** Steps to the end without a change of the files *)
Lemma inv_end f p1 p2 c c' : inv f (p1 ++ c :: p2) -> (c = Create /\ c' = Done true None) \/ (exists t e, c = Remove t e /\ c' = Done e (Some t)) -> inv f (p1 ++ c' :: p2).
Proof.
  intros I C. set (k := length p1) in *. assert (NK : nth_error (p1 ++ c :: p2) k = Some c) by apply nth_mid. assert (NM : nth_error (p1 ++ c' :: p2) k = Some c') by apply nth_mid.
  assert (NO : forall j, j <> k -> nth_error (p1 ++ c' :: p2) j = nth_error (p1 ++ c :: p2) j) by (intros j NJ; apply nth_mid_other, NJ).
  assert (TN : tmp_of c' = None) by (destruct C as [[_ ->]|(t & e & _ & ->)]; reflexivity). assert (NA : forall t i s, c' <> At t i s) by (destruct C as [[_ ->]|(t & e & _ & ->)]; discriminate).
  assert (CE : committed c' <-> committed c).
  { destruct C as [[-> ->]|(t & e & -> & ->)]; (split; intros [(x & X)|(x & X)]); try discriminate X; injection X; intros; subst; [left|right]; eauto. }
  assert (CM : forall j x, nth_error (p1 ++ c :: p2) j = Some x -> committed x -> exists x', nth_error (p1 ++ c' :: p2) j = Some x' /\ committed x').
  { intros j x E X. destruct (Nat.eq_dec j k) as [->|NE]; [rewrite NK in E; injection E as <-; exists c'; rewrite CE; auto|]. exists x. rewrite NO by exact NE. auto. }
  constructor.
  - apply (i_range _ _ I).
  - intros d p ID TP. destruct (i_good _ _ I d p ID TP) as [K|R]; [left; exact K|right; apply (renewed_more f _ _ _ _ _ (fun i n E => E) CM R)].
  - intros k1 t i s E. destruct (Nat.eq_dec k1 k) as [->|NE]; [rewrite NM in E; injection E as E; destruct (NA _ _ _ E)|]. rewrite NO in E by exact NE. exact (i_own _ _ I _ _ _ _ E).
  - intros k1 x t E X. destruct (Nat.eq_dec k1 k) as [->|NE]; [rewrite NM in E; injection E as <-; congruence|]. rewrite NO in E by exact NE. exact (i_tmp _ _ I _ _ _ E X).
  - intros k1 k2 c1 c2 t E1 E2 T1 T2. destruct (Nat.eq_dec k1 k) as [->|N1]; [rewrite NM in E1; injection E1 as <-; congruence|]. destruct (Nat.eq_dec k2 k) as [->|N2]; [rewrite NM in E2; injection E2 as <-; congruence|].
    rewrite NO in E1 by exact N1. rewrite NO in E2 by exact N2. exact (i_dist _ _ I _ _ _ _ _ E1 E2 T1 T2).
  - intros k1 k2 t1 t2 i s1 s2 E1 E2. destruct (Nat.eq_dec k1 k) as [->|N1]; [rewrite NM in E1; injection E1 as E1; destruct (NA _ _ _ E1)|]. destruct (Nat.eq_dec k2 k) as [->|N2]; [rewrite NM in E2; injection E2 as E2; destruct (NA _ _ _ E2)|].
    rewrite NO in E1 by exact N1. rewrite NO in E2 by exact N2. exact (i_node _ _ I _ _ _ _ _ _ _ E1 E2).
  - intros k1 w x EW E. destruct (Nat.eq_dec k1 k) as [->|NE]; [rewrite NM in E; injection E as <-; destruct C as [[_ ->]|(t & e & _ & ->)]; exact Logic.I|]. rewrite NO in E by exact NE. exact (i_local _ _ I _ _ _ EW E).
  - intros p i E X. destruct (i_left _ _ I p i E X) as [H|(k1 & x & EC & H)]; [left; exact H|right]. destruct (Nat.eq_dec k1 k) as [->|NE]; [|exists k1, x; rewrite NO by exact NE; auto].
    rewrite NK in EC. injection EC as <-. exists k, c'. split; [exact NM|]. destruct C as [[-> ->]|(t & e & -> & ->)].
    + destruct H as [H|(e & H)]; discriminate H.
    + destruct H as [H|(e' & H)]; [|discriminate H]. cbn in H. injection H as ->. right. eauto.
  - intros k1 w x EW E X. destruct (Nat.eq_dec k1 k) as [->|NE].
    + rewrite NM in E. injection E as <-. apply CE in X. apply (renewed_more f _ _ _ _ _ (fun i n E => E) CM), (i_last _ _ I _ _ _ EW NK X).
    + rewrite NO in E by exact NE. apply (renewed_more f _ _ _ _ _ (fun i n E => E) CM), (i_last _ _ I _ _ _ EW E X).
Qed.

Lemma target_perm f ps w j n : inv f ps -> In w ws -> lookup (w_target w) (f_dir f) = Some j -> nth_error (f_nodes f) j = Some n -> N.land (n_mode n) 511 = perm f0 (w_target w).
Proof.
  intros I W L E. destruct (i_good _ _ I (f_dir f) (w_target w) (or_introl eq_refl) (targets w W)) as [[A B]|(i & m & k & w' & c & E1 & E2 & _ & E4 & _)].
  - unfold perm, file. rewrite <- A, L. rewrite <- (B j L), E. reflexivity.
  - rewrite L in E1. injection E1 as <-. rewrite E in E2. injection E2 as <-. exact E4.
Qed.
Lemma target_missing f ps w : inv f ps -> In w ws -> lookup (w_target w) (f_dir f) = None -> perm f0 (w_target w) = 384.
Proof.
  intros I W L. destruct (i_good _ _ I (f_dir f) (w_target w) (or_introl eq_refl) (targets w W)) as [[A B]|(i & m & k & w' & c & E1 & _)]; [|congruence]. unfold perm, file. rewrite <- A, L. reflexivity.
Qed.
Lemma step_inv s s' : step size ws s s' -> inv (s_fs s) (s_pcs s) -> inv (s_fs s') (s_pcs s').
Proof.
  intros H I. destruct H as [k w p1 p p2 f f' p' EW EK S|f p ps T]; cbn [s_fs s_pcs] in *; [|apply (inv_unlink f ps p ps I T); auto]. subst k.
  assert (LOC : forall c, nth_error (p1 ++ p :: p2) (length p1) = Some c -> local f w c) by (intros c E; exact (i_local _ _ I _ _ _ EW E)). specialize (LOC p (nth_mid _ _ _)).
  assert (SAME : forall t i s c', p = At t i s -> (exists s', c' = At t i s') \/ c' = Remove t true -> local f w c' -> inv f (p1 ++ c' :: p2)).
  { intros t i s c' -> C L. eapply inv_local; try exact I; try reflexivity; [exact C|]. intros w' E. rewrite EW in E. injection E as <-. exact L. }
  assert (NODE : forall t i s c' g, p = At t i s -> (exists s', c' = At t i s') \/ c' = Remove t true -> local (set_node i g f) w c' -> inv (set_node i g f) (p1 ++ c' :: p2)).
  { intros t i s c' g -> C L. eapply inv_local; try exact I; try reflexivity; [cbn; apply length_upd|intros j NE; cbn; apply nth_upd_other; congruence|exact C|]. intros w' E. rewrite EW in E. injection E as <-. exact L. }
  pose proof (nth_error_In _ _ EW) as W.
  destruct S as [f|f tmp ED T NL NU|f tmp i j n LT EN|f tmp i LT|f tmp i m|f tmp i buf q rest LE|f tmp i q rest LE|f tmp i buf q rest LE NB|f tmp i buf NF|f tmp i buf NF|f tmp i|f tmp i buf NB|f tmp i|f tmp i|f tmp i j LT|f tmp i s|f tmp i s d WR|f tmp err|f tmp err].
  - eapply inv_end; [exact I|left; auto].
  - eapply inv_create; eassumption.
  - eapply SAME; [reflexivity|eauto|]. destruct LOC as (x & Ex & M & D). exists x. split; [exact Ex|]. split; [|exact D]. rewrite land511. exact (target_perm _ _ _ _ _ I W LT EN).
  - eapply SAME; [reflexivity|eauto|]. destruct LOC as (x & Ex & M & D). exists x. split; [exact Ex|]. rewrite M, D, (target_missing _ _ _ I W LT). auto.
  - eapply NODE; [reflexivity|eauto|]. destruct LOC as (x & Ex & M & D). exists (chmod m x). split; [cbn; apply nth_upd_same, Ex|]. cbn. rewrite D. auto.
  - eapply SAME; [reflexivity|eauto|]. destruct LOC as (x & Ex & M & D). exists x. split; [exact Ex|]. split; [exact M|]. rewrite <- D. cbn [List.concat]. rewrite <- !app_assoc. reflexivity.
  - eapply NODE; [reflexivity|eauto|]. destruct LOC as (x & Ex & M & D). exists (append q x). split; [cbn; apply nth_upd_same, Ex|]. split; [exact M|]. cbn [append n_data]. rewrite <- D. cbn [List.concat]. rewrite <- !app_assoc. reflexivity.
  - eapply NODE; [reflexivity|eauto|]. destruct LOC as (x & Ex & M & D). eexists. split; [cbn; apply nth_upd_same, Ex|]. split; [exact M|]. cbn [append n_data]. rewrite <- D. cbn [List.concat]. rewrite <- !app_assoc. cbn [app]. f_equal. f_equal. rewrite app_assoc, firstn_skipn. reflexivity.
  - eapply SAME; [reflexivity|eauto|]. destruct LOC as (x & Ex & M & D). exists x. split; [exact Ex|]. split; [exact M|]. split; [|exact NF]. cbn [List.concat] in D. rewrite app_nil_r in D. exact D.
  - eapply SAME; [reflexivity|auto|exact Logic.I].
  - eapply SAME; [reflexivity|eauto|]. destruct LOC as (x & Ex & M & D & F). exists x. split; [exact Ex|]. rewrite app_nil_r in D. auto.
  - eapply NODE; [reflexivity|eauto|]. destruct LOC as (x & Ex & M & D & F). exists (append buf x). split; [cbn; apply nth_upd_same, Ex|]. auto.
  - eapply NODE; [reflexivity|eauto|]. destruct LOC as (x & Ex & M & D & F). exists (sync x). split; [cbn; apply nth_upd_same, Ex|]. auto.
  - eapply SAME; [reflexivity|eauto|]. exact LOC.
  - destruct (i_own _ _ I _ _ _ _ (nth_mid _ _ _)) as (_ & O & _). assert (j = i) by (destruct O; congruence). subst j. apply inv_rename; assumption.
  - eapply SAME; [reflexivity|auto|exact Logic.I].
  - eapply NODE; [reflexivity|auto|exact Logic.I].
  - eapply inv_unlink; [exact I|exact (proj1 (i_tmp _ _ I _ _ _ (nth_mid _ _ _) eq_refl))|]. right. exists p1, p2, err. auto.
  - eapply inv_end; [exact I|]. right. eauto.
Qed.
Lemma start_inv : inv f0 (map (fun _ => Create) ws).
Proof.
  destruct Q as [O S]. assert (G : forall k c, nth_error (map (fun _ : writer => Create) ws) k = Some c -> c = Create).
  { intros k c E. apply nth_error_In in E. apply in_map_iff in E. destruct E as (x & <- & _). reflexivity. }
  constructor; rewrite ?O.
  - intros d p i [<-|[]] E. destruct (S p i E) as (n & En & _). apply nth_error_Some. congruence.
  - intros d p [<-|[]] _. left. split; auto.
  - intros k t i s E. apply G in E. discriminate E.
  - intros k c t E X. apply G in E. subst c. discriminate X.
  - intros k k' c c' t E E' X X'. apply G in E. subst c. discriminate X.
  - intros k k' t t' i s s' E. apply G in E. discriminate E.
  - intros k w c _ E. apply G in E. subst c. exact Logic.I.
  - intros p i E _. left. congruence.
  - intros k w c _ E X. apply G in E. subst c. destruct X as [(x & X)|(x & X)]; discriminate X.
Qed.
Definition start : sys := Sys f0 (map (fun _ => Create) ws).
Lemma steps_inv s : steps size ws start s -> inv (s_fs s) (s_pcs s).
Proof. remember start as s0 eqn:E. induction 1 as [s|s s1 s2 _ IH H]; subst; [apply start_inv|]. apply (step_inv _ _ H), IH. reflexivity. Qed.

Lemma kept_file f d p ns : kept f d p -> (forall i n, nth_error (f_nodes f) i = Some n -> n_safe n = true -> nth_error ns i = Some n) -> file (FS d ns [] []) p = file f0 p.
Proof.
  intros [A B] H. unfold file. cbn [f_dir f_nodes]. rewrite <- A. destruct (lookup p d) as [i|] eqn:E; [|reflexivity]. destruct Q as [_ S]. rewrite A in *. destruct (S p i (eq_sym A)) as (n & En & Sn). rewrite En.
  rewrite (H i n); [reflexivity| |exact Sn]. rewrite (B i (eq_sym A)). exact En.
Qed.
Lemma renewed_file f ps d p ns : renewed f ps d p -> (forall i n, nth_error (f_nodes f) i = Some n -> n_safe n = true -> nth_error ns i = Some n) -> result_of ws ps f0 p (file (FS d ns [] []) p).
Proof.
  intros (i & n & k & w & c & E1 & E2 & E3 & E4 & E5 & E6 & E7 & E8 & E9 & E10) H. exists k, w, c. repeat (split; [assumption|]). unfold file. cbn [f_dir f_nodes]. rewrite E1, (H i n E2 E3), E4, E5. reflexivity.
Qed.
Lemma file_fs f p : file f p = file (FS (f_dir f) (f_nodes f) [] []) p. Proof. reflexivity. Qed.
(** Whenever it stops *)
Lemma atomic s f p : steps size ws start s -> crash (s_fs s) f -> is_tmp p = false -> file f p = file f0 p \/ result_of ws (s_pcs s) f0 p (file f p).
Proof.
  intros S C T. pose proof (steps_inv s S) as I. destruct C as [|d ns D F].
  - rewrite (file_fs (s_fs s)). destruct (i_good _ _ I (f_dir (s_fs s)) p (or_introl eq_refl) T) as [K|R]; [left; apply (kept_file _ _ _ _ K)|right; apply (renewed_file _ _ _ _ _ R)]; auto.
  - assert (H : forall i n, nth_error (f_nodes (s_fs s)) i = Some n -> n_safe n = true -> nth_error ns i = Some n).
    { clear -F. induction F as [|x y l l' H _ IH]; intros [|i] n E X; try discriminate E; cbn in *; [injection E as <-; rewrite (H X); reflexivity|apply IH; assumption]. }
    assert (D' : f_dir (s_fs s) = d \/ In d (f_old (s_fs s))) by (destruct D; auto).
    destruct (i_good _ _ I d p D' T) as [K|R]; [left; exact (kept_file _ _ _ _ K H)|right; exact (renewed_file _ _ _ _ _ R H)].
Qed.
(** Success *)
Lemma success s k w c : steps size ws start s -> nth_error ws k = Some w -> nth_error (s_pcs s) k = Some c -> committed c -> result_of ws (s_pcs s) f0 (w_target w) (file (s_fs s) (w_target w)).
Proof. intros S EW EC C. pose proof (steps_inv s S) as I. rewrite (file_fs (s_fs s)). apply (renewed_file (s_fs s)); [exact (i_last _ _ I _ _ _ EW EC C)|auto]. Qed.
(** Temporary files *)
Lemma leftovers s p : steps size ws start s -> file (s_fs s) p <> None -> is_tmp p = true -> file f0 p = None ->
  exists k c, nth_error (s_pcs s) k = Some c /\ (tmp_of c = Some p \/ exists e, c = Done e (Some p)).
Proof.
  intros S F T N. pose proof (steps_inv s S) as I. unfold file in F. destruct (lookup p (f_dir (s_fs s))) as [i|] eqn:E; [|congruence]. destruct (i_left _ _ I p i E T) as [H|H]; [|exact H].
  exfalso. destruct (lookup p (f_dir f0)) as [j|] eqn:E0; [|congruence]. destruct Q as [_ Q2]. destruct (Q2 p j E0) as (n & En & _). unfold file in N. rewrite E0, En in N. discriminate N.
Qed.
End INV.

(** A call that nothing goes wrong with *)
Lemma steps_trans size ws a b c : steps size ws a b -> steps size ws b c -> steps size ws a c.
Proof. intros H H'. induction H' as [|s s' s'' _ IH S]; [exact H|]. eapply steps_step; [apply IH, H|exact S]. Qed.
Lemma one size w f c f' c' : wstep size w f c f' c' -> steps size [w] (Sys f [c]) (Sys f' [c']).
Proof. intros H. eapply steps_step; [apply steps_refl|]. exact (step_writer size [w] 0 w [] c [] f f' c' eq_refl eq_refl H). Qed.
Lemma fill_run size w t i chunks : forall buf f, exists f' buf', steps size [w] (Sys f [At t i (Fill buf chunks)]) (Sys f' [At t i (Fill buf' [])]) /\ f_dir f' = f_dir f.
Proof.
  induction chunks as [|q rest IH]; intros buf f; [exists f, buf; split; [apply steps_refl|reflexivity]|].
  assert (G : forall f b q0, (length q0 <= size - length b)%nat -> exists f' buf', steps size [w] (Sys f [At t i (Fill b (q0 :: rest))]) (Sys f' [At t i (Fill buf' [])]) /\ f_dir f' = f_dir f).
  { intros f1 b q0 L. destruct (IH (b ++ q0) f1) as (f' & b' & S & D). exists f', b'. split; [|exact D]. eapply steps_trans; [apply one, ws_buffer, L|exact S]. }
  assert (G2 : forall f q0, exists f' buf', steps size [w] (Sys f [At t i (Fill [] (q0 :: rest))]) (Sys f' [At t i (Fill buf' [])]) /\ f_dir f' = f_dir f).
  { intros f1 q0. destruct (le_dec (length q0) size) as [L|L]; [apply G; cbn; lia|]. destruct (IH [] (set_node i (append q0) f1)) as (f' & b' & S & D). exists f', b'. split; [|exact D]. eapply steps_trans; [apply one, ws_direct, L|exact S]. }
  destruct (le_dec (length q) (size - length buf)) as [L|L]; [apply G, L|]. destruct buf as [|x buf]; [apply G2|].
  set (n := (size - length (x :: buf))%nat) in *. destruct (G2 (set_node i (append ((x :: buf) ++ firstn n q)) f) (skipn n q)) as (f' & b' & S & D). exists f', b'. split; [|exact D].
  eapply steps_trans; [apply one, ws_full; [exact L|discriminate]|exact S].
Qed.
Fixpoint xs (n : nat) : string := match n with O => EmptyString | S m => String "x" (xs m) end.
Lemma xs_length n : String.length (xs n) = n. Proof. induction n as [|n IH]; cbn; congruence. Qed.
Lemma app_length_str a b : String.length (a ++ b) = (String.length a + String.length b)%nat.
Proof. induction a as [|c a IH]; cbn; [reflexivity|rewrite IH; reflexivity]. Qed.
Lemma prefix_app p s : String.prefix p (p ++ s) = true.
Proof. induction p as [|c p IH]; [destruct s; reflexivity|]. cbn. destruct (Ascii.ascii_dec c c); [exact IH|congruence]. Qed.
Lemma fresh (l : list path) d : exists t : path, fst t = d /\ is_tmp t = true /\ ~ In t l.
Proof.
  assert (B : exists n, forall t, In t l -> (String.length (snd t) <= n)%nat).
  { induction l as [|x l (n & IH)]; [exists O; intros t []|]. exists (String.length (snd x) + n)%nat. intros t [<-|H]; [lia|]. specialize (IH t H). lia. }
  destruct B as (n & B). exists (d, (tmpPrefix ++ xs n)%string). split; [reflexivity|]. split; [apply prefix_app|]. intros H. specialize (B _ H). cbn [snd] in B. rewrite app_length_str, xs_length in B. cbn in B. lia.
Qed.
Lemma lookup_in p d i : lookup p d = Some i -> In (p, i) d.
Proof. induction d as [|[x j] d IH]; [discriminate|]. cbn. destruct (path_eqb x p) eqn:E; [|auto]. intros [= <-]. apply path_eqb_eq in E. subst. auto. Qed.
Lemma completes size w f0 : quiet f0 -> is_tmp (w_target w) = false -> w_fails w = false ->
  exists f, steps size [w] (start [w] f0) (Sys f [Done false None]) /\ file f (w_target w) = Some (perm f0 (w_target w), List.concat (w_chunks w)).
Proof.
  intros Q T F. assert (R : exists f, steps size [w] (start [w] f0) (Sys f [Done false None])).
  { destruct (fresh (f_used f0 ++ map fst (f_dir f0)) (fst (w_target w))) as (t & D & TT & NI). assert (LN : lookup t (f_dir f0) = None).
    { destruct (lookup t (f_dir f0)) as [i|] eqn:E; [|reflexivity]. destruct NI. apply in_or_app. right. apply in_map_iff. exists (t, i). split; [reflexivity|apply lookup_in, E]. }
    set (i := length (f_nodes f0)). set (f1 := FS ((t, i) :: f_dir f0) (f_nodes f0 ++ [Node 384 [] false]) (f_dir f0 :: f_old f0) (t :: f_used f0)).
    assert (L1 : forall f, f_dir f = f_dir f1 -> lookup t (f_dir f) = Some i) by (intros f ->; cbn; rewrite path_eqb_refl; reflexivity).
    assert (S2 : exists f2, steps size [w] (Sys f1 [At t i Stat]) (Sys f2 [At t i (Fill [] (w_chunks w))]) /\ f_dir f2 = f_dir f1).
    { destruct (lookup (w_target w) (f_dir f1)) as [j|] eqn:E.
      - assert (NE : w_target w <> t) by congruence. assert (EN : exists n, nth_error (f_nodes f1) j = Some n).
        { cbn in E. rewrite path_eqb_neq in E by congruence. destruct Q as [_ Q2]. destruct (Q2 _ _ E) as (n & En & _). exists n. cbn. rewrite nth_error_app1; [exact En|]. apply nth_error_Some. congruence. }
        destruct EN as (n & EN). eexists. split; [eapply steps_trans; [apply one; eapply ws_stat; eassumption|apply one, ws_chmod]|reflexivity].
      - exists f1. split; [apply one, ws_stat_missing, E|reflexivity]. }
    destruct S2 as (f2 & S2 & D2). destruct (fill_run size w t i (w_chunks w) [] f2) as (f3 & buf & S3 & D3).
    assert (S4 : exists f4, steps size [w] (Sys f3 [At t i (Flush buf)]) (Sys f4 [At t i Sync]) /\ f_dir f4 = f_dir f3).
    { destruct buf as [|x buf]; [exists f3; split; [apply one, ws_flush_empty|reflexivity]|]. eexists. split; [apply one, ws_flush; discriminate|reflexivity]. }
    destruct S4 as (f4 & S4 & D4). eexists. eapply steps_trans; [apply one; apply (ws_create size w f0 t D TT LN); intros H; apply NI, in_or_app; auto|]. eapply steps_trans; [exact S2|]. eapply steps_trans; [exact S3|].
    eapply steps_trans; [apply one, ws_written, F|]. eapply steps_trans; [exact S4|]. eapply steps_trans; [apply one, ws_sync|]. eapply steps_trans; [apply one, ws_close|].
    eapply steps_trans; [apply one; apply ws_rename with (j := i); apply L1; cbn [set_node f_dir]; congruence|]. apply one, ws_remove. }
  destruct R as (f & R). exists f. split; [exact R|]. assert (TG : forall w', In w' [w] -> is_tmp (w_target w') = false) by (intros w' [<-|[]]; exact T).
  destruct (success size [w] f0 Q TG _ 0 w (Done false None) R eq_refl eq_refl (or_intror (ex_intro _ None eq_refl))) as ([|k] & w' & c & E1 & _ & _ & _ & _ & X); [|destruct k; discriminate E1].
  injection E1 as <-. exact X.
Qed.
(** Nothing is written to a file whose calls have failed. *)
Lemma error_keeps size ws f0 : quiet f0 -> (forall w, In w ws -> is_tmp (w_target w) = false) -> forall s f p, steps size ws (start ws f0) s -> crash (s_fs s) f -> is_tmp p = false ->
  (forall k w c, nth_error ws k = Some w -> w_target w = p -> nth_error (s_pcs s) k = Some c -> ~ committed c) -> file f p = file f0 p.
Proof. intros Q T s f p S C TP N. destruct (atomic size ws f0 Q T s f p S C TP) as [E|(k & w & c & E1 & E2 & E3 & E4 & _)]; [exact E|]. destruct (N k w c E1 E4 E2 E3). Qed.
Lemma no_leftovers size ws f0 : quiet f0 -> (forall w, In w ws -> is_tmp (w_target w) = false) -> forall s p, steps size ws (start ws f0) s -> is_tmp p = true ->
  Forall (fun c => exists e, c = Done e None) (s_pcs s) -> file f0 p = None -> file (s_fs s) p = None.
Proof.
  intros Q T s p S TP D N. destruct (file (s_fs s) p) as [x|] eqn:E; [|reflexivity]. destruct (leftovers size ws f0 Q T s p S ltac:(congruence) TP N) as (k & c & EC & H).
  apply nth_error_In in EC. rewrite Forall_forall in D. destruct (D c EC) as (e & ->). destruct H as [H|(e' & H)]; discriminate H.
Qed.
Lemma clean_exact d es now x : In x (removeStaleTempFiles d es now) <->
  d <> ""%string /\ d <> "."%string /\ exists l e t, es = Some l /\ In e l /\ d_name e = x /\ d_regular e = true /\ String.prefix ".routedns-tmp-" x = true /\ d_mtime e = Some t /\ (t <= now - 3600000000000)%Z.
Proof.
  unfold removeStaleTempFiles. destruct (String.eqb d "") eqn:E1; [apply String.eqb_eq in E1; subst; split; [intros []|intros (H & _); congruence]|]. destruct (String.eqb d ".") eqn:E2; [apply String.eqb_eq in E2; subst; split; [intros []|intros (_ & H & _); congruence]|].
  apply String.eqb_neq in E1. apply String.eqb_neq in E2. cbn [orb]. destruct es as [l|]; [|split; [intros []|intros (_ & _ & l & e & t & H & _); discriminate H]]. rewrite in_map_iff. split.
  - intros (e & <- & I). apply filter_In in I. destruct I as [I H]. apply andb_true_iff in H. destruct H as [H H3]. apply andb_true_iff in H. destruct H as [H1 H2]. split; [exact E1|]. split; [exact E2|].
    destruct (d_mtime e) as [t|] eqn:EM; [|discriminate H3]. exists l, e, t. repeat (split; [first [reflexivity|assumption]|]). unfold tmpMaxAge in H3. lia.
  - intros (_ & _ & l' & e & t & [= <-] & I & <- & H1 & H2 & H3 & H4). exists e. split; [reflexivity|]. apply filter_In. split; [exact I|]. rewrite H1, H3. unfold tmpPrefix. rewrite H2. cbn. unfold tmpMaxAge. lia.
Qed.
(** The directory is not synced: after a machine crash a version that was reported as written may be gone. *)
Lemma hist_step size ws s s' d : step size ws s s' -> (f_dir (s_fs s) = d \/ In d (f_old (s_fs s))) -> (f_dir (s_fs s') = d \/ In d (f_old (s_fs s'))).
Proof. intros H D. destruct H as [k w p1 p p2 f f' p' _ _ S|f p ps _]; [destruct S|]; cbn in *; intuition. Qed.
Lemma hist_steps size ws s s' d : steps size ws s s' -> (f_dir (s_fs s) = d \/ In d (f_old (s_fs s))) -> (f_dir (s_fs s') = d \/ In d (f_old (s_fs s'))).
Proof. induction 1 as [|s s1 s2 _ IH H]; intros D; [exact D|]. apply (hist_step _ _ _ _ _ H), IH, D. Qed.
Lemma durable_refuted : exists size w f0 s f, quiet f0 /\ is_tmp (w_target w) = false /\ steps size [w] (start [w] f0) s /\ s_pcs s = [Done false None] /\ crash (s_fs s) f /\ file f (w_target w) = None.
Proof.
  set (f0 := FS [] [] [] []). set (w := Writer ("/d", "f")%string [[1]] false). assert (Q : quiet f0) by (split; [reflexivity|]; intros p i H; discriminate H).
  destruct (completes 4 w f0 Q eq_refl eq_refl) as (f & S & _). exists 4%nat, w, f0, (Sys f [Done false None]), (FS [] (f_nodes f) [] []). repeat (split; [first [exact Q|reflexivity|exact S]|]). split; [|reflexivity].
  cbn [s_fs]. apply crash_machine.
  - destruct (hist_steps _ _ _ _ [] S (or_introl eq_refl)) as [H|H]; cbn [s_fs] in H; auto.
  - generalize (f_nodes f). intros l. induction l; constructor; auto.
Qed.
