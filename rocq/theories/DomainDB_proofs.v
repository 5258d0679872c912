(** Proofs about the domain blocklist: heap of shared maps -> pure trie -> set of rules. *)
From Verif Require Import Base Base_proofs DomainDB_model DomainDB_spec.
Open Scope string_scope.

(* ------------------------------------------------------------------ *)
(** * Association lists *)
Section MapLemmas.
  Context {V : Type}.
  Implicit Types m : list (string * V).
  Lemma mget_mset_same k v m : mget k (mset k v m) = Some v.
  Proof.
    induction m as [|[k' v'] m IH]; simpl; [rewrite String.eqb_refl; reflexivity|].
    destruct (String.eqb k k') eqn:E; simpl; [rewrite String.eqb_refl; reflexivity|].
    rewrite E; exact IH.
  Qed.
  Lemma mget_mset_other k k' v m : k <> k' -> mget k' (mset k v m) = mget k' m.
  Proof.
    intros Hk. induction m as [|[k2 v2] m IH]; simpl.
    - destruct (String.eqb_spec k' k); [congruence|reflexivity].
    - destruct (String.eqb_spec k k2); simpl.
      + subst k2. destruct (String.eqb_spec k' k); [congruence|reflexivity].
      + rewrite IH; reflexivity.
  Qed.
  Lemma mset_not_nil k v m : mset k v m <> [].
  Proof. destruct m as [|[k' v'] m]; simpl; [discriminate|]. destruct (String.eqb k k'); discriminate. Qed.
End MapLemmas.

(* ------------------------------------------------------------------ *)
(** * Pure tries *)
Inductive tree := Nil | Map (kids : list (string * tree)).
Definition kids := list (string * tree).

Fixpoint tins (t : kids) (rp : list string) : kids :=
  match rp with
  | [] => t
  | part :: rest =>
      match mget part t with
      | None => mset part (match rest with [] => Nil | _ => Map (tins [] rest) end) t
      | Some sub =>
          match rest with
          | [] =>
              match sub with
              | Nil => t
              | Map [] => t
              | Map sk => match mget "" sk with
                          | Some _ => t
                          | None => mset part (Map (mset exactKey Nil sk)) t
                          end
              end
          | _ =>
              match sub with
              | Nil => mset part (Map (tins [(exactKey, Nil)] rest)) t
              | Map sk => mset part (Map (tins sk rest)) t
              end
          end
      end
  end.

Arguments tins : simpl never.
Lemma tins_cons t part rest :
  tins t (part :: rest) =
      match mget part t with
      | None => mset part (match rest with [] => Nil | _ => Map (tins [] rest) end) t
      | Some sub =>
          match rest with
          | [] =>
              match sub with
              | Nil => t
              | Map [] => t
              | Map sk => match mget "" sk with
                          | Some _ => t
                          | None => mset part (Map (mset exactKey Nil sk)) t
                          end
              end
          | _ =>
              match sub with
              | Nil => mset part (Map (tins [(exactKey, Nil)] rest)) t
              | Map sk => mset part (Map (tins sk rest)) t
              end
          end
      end.
Proof. reflexivity. Qed.

Definition tkids (t : tree) : kids := match t with Nil => [] | Map k => k end.

Fixpoint tget (t : tree) (p : list string) : option tree :=
  match p with
  | [] => Some t
  | k :: p' => match mget k (tkids t) with None => None | Some s => tget s p' end
  end.

Definition has (k : string) (t : tree) : bool :=
  match mget k (tkids t) with Some _ => true | None => false end.
Definition term (t : tree) : bool :=
  match tkids t with [] => true | _ => has exactKey t end.

Fixpoint twalk (t : tree) (rp : list string) (matched : list string) : string * bool :=
  match rp with
  | [] => (matchedDomainParts "" matched, term t)
  | part :: rest =>
      match mget part (tkids t) with
      | None => ("", false)
      | Some sub =>
          let matched' := (matched ++ [part])%list in
          if has "" sub then (matchedDomainParts "." matched', true)
          else match rest with
               | _ :: _ => if has "*" sub then (matchedDomainParts "*." matched', true)
                           else twalk sub rest matched'
               | [] => twalk sub rest matched'
               end
      end
  end.

(* ------------------------------------------------------------------ *)
(** * Heap representation of a trie: only the two sentinels are shared *)
Inductive rep (h : heap) : hnode -> tree -> list addr -> Prop :=
| rep_nil : rep h None Nil []
| rep_dot : rep h (Some dotNode) (Map [("", Nil)]) []
| rep_star : rep h (Some starNode) (Map [("*", Nil)]) []
| rep_map a tk fp :
    2 <= a -> repk h (mem h a) tk fp -> NoDup (a :: fp) -> rep h (Some a) (Map tk) (a :: fp)
with repk (h : heap) : hmap -> kids -> list addr -> Prop :=
| repk_nil : repk h [] [] []
| repk_cons k n t hk tk fp1 fp2 :
    rep h n t fp1 -> repk h hk tk fp2 -> NoDup (fp1 ++ fp2) ->
    repk h ((k, n) :: hk) ((k, t) :: tk) (fp1 ++ fp2).

Scheme rep_ind2 := Induction for rep Sort Prop
  with repk_ind2 := Induction for repk Sort Prop.
Combined Scheme rep_repk_ind from rep_ind2, repk_ind2.

Lemma frame_both h h' :
  (forall n t fp, rep h n t fp -> (forall a, In a fp -> mem h' a = mem h a) -> rep h' n t fp)
  /\ (forall hk tk fp, repk h hk tk fp -> (forall a, In a fp -> mem h' a = mem h a) -> repk h' hk tk fp).
Proof.
  split.
  - intros n t fp H. 
    apply (rep_ind2 h (fun n t fp _ => (forall a, In a fp -> mem h' a = mem h a) -> rep h' n t fp)
                      (fun hk tk fp _ => (forall a, In a fp -> mem h' a = mem h a) -> repk h' hk tk fp)); auto.
    + constructor.
    + constructor.
    + constructor.
    + intros a tk fp0 Ha Hk IH Hnd Hag. constructor; auto.
      rewrite Hag by (left; reflexivity). apply IH. intros b Hb. apply Hag. right; exact Hb.
    + intros _. constructor.
    + intros k n0 t0 hk tk fp1 fp2 H1 IH1 H2 IH2 Hnd Hag.
      constructor; auto.
      * apply IH1. intros a Ha. apply Hag, in_or_app; auto.
      * apply IH2. intros a Ha. apply Hag, in_or_app; auto.
  - intros n t fp H. 
    apply (repk_ind2 h (fun n t fp _ => (forall a, In a fp -> mem h' a = mem h a) -> rep h' n t fp)
                      (fun hk tk fp _ => (forall a, In a fp -> mem h' a = mem h a) -> repk h' hk tk fp)); auto.
    + constructor.
    + constructor.
    + constructor.
    + intros a tk fp0 Ha Hk IH Hnd Hag. constructor; auto.
      rewrite Hag by (left; reflexivity). apply IH. intros b Hb. apply Hag. right; exact Hb.
    + intros _. constructor.
    + intros k n0 t0 hk tk fp1 fp2 H1 IH1 H2 IH2 Hnd Hag.
      constructor; auto.
      * apply IH1. intros a Ha. apply Hag, in_or_app; auto.
      * apply IH2. intros a Ha. apply Hag, in_or_app; auto.
Qed.
Definition rep_frame h h' := proj1 (frame_both h h').
Definition repk_frame h h' := proj2 (frame_both h h').

Lemma repk_nodup h hk tk fp : repk h hk tk fp -> NoDup fp.
Proof. intros H; inversion H; subst; [constructor|assumption]. Qed.

Lemma rep_nodup h n t fp : rep h n t fp -> NoDup fp.
Proof. intros H; inversion H; subst; try constructor; inversion H2; assumption. Qed.

Lemma repk_get_none h hk tk fp k : repk h hk tk fp -> mget k hk = None <-> mget k tk = None.
Proof.
  intros H; induction H as [|k0 n t hk tk fp1 fp2 Hr Hk IH Hnd]; simpl; [tauto|].
  destruct (String.eqb k k0); [split; discriminate|exact IH].
Qed.

Lemma nodup_app_inv {A} (l1 l2 : list A) :
  NoDup (l1 ++ l2) <-> NoDup l1 /\ NoDup l2 /\ (forall x, In x l1 -> In x l2 -> False).
Proof.
  induction l1 as [|x l1 IH]; simpl.
  - split; [intros H; repeat split; [constructor|exact H|tauto]|tauto].
  - rewrite !NoDup_cons_iff, IH, in_app_iff. split.
    + intros (H1 & H2 & H3 & H4). repeat split; auto.
      intros y [->|Hy] Hy2; [tauto|eauto].
    + intros ((H1 & H2) & H3 & H4). repeat split; auto.
      * intros [Hx|Hx]; [tauto|eauto].
      * eauto.
Qed.

(** Focus on one key of a represented map: what is there, and what may be put there. *)
Lemma repk_focus h hk tk fp k n :
  repk h hk tk fp -> mget k hk = Some n ->
  exists t fp1 fpr,
    mget k tk = Some t /\ rep h n t fp1 /\ Permutation fp (fp1 ++ fpr) /\
    forall h' n' t' fp1',
      (forall a, In a fpr -> mem h' a = mem h a) ->
      rep h' n' t' fp1' -> (forall x, In x fp1' -> In x fpr -> False) ->
      exists fp', repk h' (mset k n' hk) (mset k t' tk) fp' /\ Permutation fp' (fp1' ++ fpr).
Proof.
  intros H; induction H as [|k0 n0 t0 hk tk fp1 fp2 Hr Hk IH Hnd]; simpl; [discriminate|].
  destruct (String.eqb_spec k k0) as [->|Hne].
  - intros [= ->]. exists t0, fp1, fp2. repeat split; auto.
    intros h' n' t' fp1' Hag Hr' Hdis. exists (fp1' ++ fp2)%list. split; [|reflexivity].
    constructor; auto.
    + eapply repk_frame; eauto.
    + apply nodup_app_inv. repeat split; eauto using rep_nodup, repk_nodup.
  - intros Hg. destruct (IH Hg) as (t & f1 & fr & Hgt & Hr1 & Hp & Hput).
    exists t, f1, (fp1 ++ fr)%list. repeat split; auto.
    { rewrite Hp. rewrite !app_assoc. apply Permutation_app_tail, Permutation_app_comm. }
    intros h' n' t' fp1' Hag Hr' Hdis.
    destruct (Hput h' n' t' fp1') as (fp' & Hrk & Hp').
    { intros a Ha. apply Hag, in_or_app; auto. }
    { exact Hr'. }
    { intros x H1 H2. apply (Hdis x H1), in_or_app; auto. }
    exists (fp1 ++ fp')%list. split.
    + constructor; auto.
      * eapply rep_frame; eauto. intros a Ha. apply Hag, in_or_app; auto.
      * apply nodup_app_inv in Hnd. destruct Hnd as (N1 & N2 & N3).
        apply nodup_app_inv. repeat split; eauto using repk_nodup.
        intros x H1 H2. rewrite Hp' in H2. apply in_app_or in H2. destruct H2 as [H2|H2].
        -- apply (Hdis x H2), in_or_app; auto.
        -- apply (N3 x H1). rewrite Hp. apply in_or_app; auto.
    + rewrite Hp'. rewrite !app_assoc. apply Permutation_app_tail, Permutation_app_comm.
Qed.

(** Adding a key that is not there. *)
Lemma repk_add h hk tk fp k h' n' t' fp1' :
  repk h hk tk fp -> mget k hk = None ->
  (forall a, In a fp -> mem h' a = mem h a) ->
  rep h' n' t' fp1' -> (forall x, In x fp1' -> In x fp -> False) ->
  exists fp', repk h' (mset k n' hk) (mset k t' tk) fp' /\ Permutation fp' (fp1' ++ fp).
Proof.
  intros H; revert h' n' t' fp1'.
  induction H as [|k0 n0 t0 hk tk fp1 fp2 Hr Hk IH Hnd]; simpl; intros h' n' t' fp1'.
  - intros _ _ Hr' _. exists (fp1' ++ [])%list. split; [|reflexivity].
    constructor; auto; [constructor|]. rewrite app_nil_r. eapply rep_nodup; eauto.
  - destruct (String.eqb k k0); [discriminate|]. intros Hg Hag Hr' Hdis.
    destruct (IH h' n' t' fp1') as (fp' & Hrk & Hp'); auto.
    { intros a Ha. apply Hag, in_or_app; auto. }
    { intros x H1 H2. apply (Hdis x H1), in_or_app; auto. }
    exists (fp1 ++ fp')%list. split.
    + constructor; auto.
      * eapply rep_frame; eauto. intros a Ha. apply Hag, in_or_app; auto.
      * apply nodup_app_inv in Hnd. destruct Hnd as (N1 & N2 & N3).
        apply nodup_app_inv. repeat split; eauto using repk_nodup.
        intros x H1 H2. rewrite Hp' in H2. apply in_app_or in H2. destruct H2 as [H2|H2].
        -- apply (Hdis x H2), in_or_app; auto.
        -- apply (N3 x H1 H2).
    + rewrite Hp'. rewrite !app_assoc. apply Permutation_app_tail, Permutation_app_comm.
Qed.

(* ------------------------------------------------------------------ *)
(** * Inserting one rule refines [tins] *)
Definition hinv (h : heap) : Prop :=
  mem h dotNode = [("", None)] /\ mem h starNode = [("*", None)] /\ 3 <= next h.

Fixpoint starsOk (rp : list string) : bool :=
  match rp with
  | [] => true
  | part :: rest => negb (badStar part (match rest with [] => true | _ => false end)) && starsOk rest
  end.

Lemma content_rep h n t fp : hinv h -> rep h n t fp -> exists fpk, repk h (content h n) (tkids t) fpk
   /\ incl fpk fp.
Proof.
  intros (Hd & Hs & _) H; inversion H; subst; simpl.
  - exists []; split; [constructor|apply incl_refl].
  - exists []; split; [|apply incl_refl]. rewrite Hd. change (@nil addr) with (@nil addr ++ [])%list. 
    constructor; constructor.
  - exists []; split; [|apply incl_refl]. rewrite Hs. change (@nil addr) with (@nil addr ++ [])%list. 
    constructor; constructor.
  - exists fp0; split; [assumption|]. intros x Hx; right; exact Hx.
Qed.

Lemma upd_same h a m : mem (upd h a m) a = m.
Proof. simpl. rewrite Nat.eqb_refl; reflexivity. Qed.
Lemma upd_other h a m b : b <> a -> mem (upd h a m) b = mem h b.
Proof. intros H. simpl. destruct (Nat.eqb_spec b a); [congruence|reflexivity]. Qed.

Lemma shared_kids h n t fp m :
  hinv h -> rep h n t fp -> content h n = m -> isSharedShape h n = true ->
  (n = None /\ t = Nil) \/ (exists a k, n = Some a /\ m = [(k, None)] /\ t = Map [(k, Nil)]).
Proof.
  intros Hi Hr Hc Hs. destruct (content_rep h n t fp Hi Hr) as (fpk & Hk & _).
  unfold isSharedShape in Hs. rewrite Hc in Hs, Hk.
  destruct m as [|[k v] [|kv2 m]]; [| |discriminate].
  - destruct n; [discriminate|]. left. inversion Hr; auto.
  - right. assert (v = None).
    { cbn [mget] in Hs. destruct (String.eqb "" k); [destruct v; congruence|].
      destruct (String.eqb "*" k); [destruct v; congruence|discriminate]. }
    subst v. inversion Hk as [|k0 n0 t0 hk tk fp1 fp2 H1 H2 H3]; subst. 
    inversion H1; subst. inversion H2; subst.
    destruct n as [a|]; [|discriminate Hc]. exists a, k. repeat split; auto.
    destruct t as [|tk]; [discriminate|]. cbn [tkids] in *. congruence.
Qed.

Lemma not_shared_map h n t fp :
  hinv h -> rep h n t fp -> isSharedShape h n = false ->
  exists a tk fpk, n = Some a /\ t = Map tk /\ 2 <= a /\ fp = a :: fpk /\ repk h (mem h a) tk fpk
                   /\ NoDup (a :: fpk).
Proof.
  intros (Hd & Hs & Hn) Hr Hf. inversion Hr; subst.
  - discriminate Hf.
  - exfalso. unfold isSharedShape in Hf. simpl in Hf. rewrite Hd in Hf. discriminate Hf.
  - exfalso. unfold isSharedShape in Hf. simpl in Hf. rewrite Hs in Hf. discriminate Hf.
  - exists a, tk, fp0. repeat split; auto.
Qed.

Definition inv_at (h : heap) (a : addr) (tk : kids) (fp : list addr) : Prop :=
  hinv h /\ 2 <= a < next h /\ repk h (mem h a) tk fp /\ NoDup (a :: fp) /\
  Forall (fun b => 2 <= b < next h) fp.

(** Result of an insertion below [a] *)
Definition post (h : heap) (a : addr) (fp : list addr) (h' : heap) (tk' : kids) : Prop :=
  next h <= next h' /\
  (forall b, b < next h -> ~ In b (a :: fp) -> mem h' b = mem h b) /\
  exists fp', inv_at h' a tk' fp' /\
              (forall b, In b fp' -> In b fp \/ next h <= b).

Ltac simp_alloc := cbn [alloc store content mem upd next] in *.

Lemma rep_sentinels_lt h n t fp : rep h n t fp -> forall a, n = Some a -> t <> Nil.
Proof. intros H a ->. inversion H; discriminate. Qed.

Lemma hinv_upd h a m : hinv h -> 2 <= a -> hinv (upd h a m).
Proof.
  intros (Hd & Hs & Hn) Ha. unfold hinv, dotNode, starNode in *. repeat split.
  - rewrite upd_other by lia; exact Hd.
  - rewrite upd_other by lia; exact Hs.
  - exact Hn.
Qed.

Lemma hinv_alloc h m : hinv h -> hinv (fst (alloc h m)).
Proof.
  intros (Hd & Hs & Hn). unfold hinv, alloc, dotNode, starNode in *; cbn [fst]. repeat split.
  - rewrite upd_other by lia; exact Hd.
  - rewrite upd_other by lia; exact Hs.
  - cbn. lia.
Qed.

(** Put the node [n'] (represented in [h']) at key [k] of the map at [a]; general case. *)
Lemma nodup_cons_perm {A} (x : A) l l' : Permutation l l' -> NoDup (x :: l) -> NoDup (x :: l').
Proof. intros Hp. apply Permutation_NoDup. constructor; exact Hp. Qed.

Lemma addParts_dot h : mem h dotNode = [("", None)] -> addParts h (Some dotNode) [""] = OK h.
Proof. intros E. cbn [addParts]. cbn [content]. rewrite E. reflexivity. Qed.
Lemma addParts_star h : mem h starNode = [("*", None)] -> addParts h (Some starNode) ["*"] = OK h.
Proof. intros E. cbn [addParts]. cbn [content]. rewrite E. reflexivity. Qed.

Lemma addParts_post : forall rp h a tk fp,
  starsOk rp = true -> inv_at h a tk fp ->
  exists h', addParts h (Some a) rp = OK h' /\ post h a fp h' (tins tk rp).
Proof.
  induction rp as [|part rest IH]; intros h a tk fp Hst Hinv.
  - exists h. split; [reflexivity|]. split; [lia|]. split; [auto|].
    exists fp. split; [exact Hinv|auto].
  - simpl in Hst. apply andb_true_iff in Hst. destruct Hst as [Hb Hst].
    apply negb_true_iff in Hb.
    pose proof Hinv as (Hi & Ha & Hk & Hnd & Hfp).
    cbn [addParts]. rewrite Hb. cbn [content].
    pose proof (repk_get_none h (mem h a) tk fp part Hk) as Hnone.
    destruct (mget part (mem h a)) as [sub|] eqn:Eget.
    + (* existing *)
      destruct (repk_focus h (mem h a) tk fp part sub Hk Eget)
        as (t & f1 & fr & Hgt & Hr & Hp & Hput).
      assert (Hnd' : NoDup (a :: f1 ++ fr)%list) by (eapply nodup_cons_perm; eauto).
      apply NoDup_cons_iff in Hnd'. destruct Hnd' as [Hna Hndf].
      apply nodup_app_inv in Hndf. destruct Hndf as (Hn1 & Hn2 & Hn3).
      assert (Hfl : Forall (fun b => 2 <= b < next h) f1 /\ Forall (fun b => 2 <= b < next h) fr).
      { rewrite Hp in Hfp. apply Forall_app in Hfp. exact Hfp. }
      destruct Hfl as [Hf1 Hfr]. rewrite Forall_forall in Hf1, Hfr.
      rewrite tins_cons, Hgt.
      destruct rest as [|p2 rest].
      * (* terminal *)
        destruct (content_rep h sub t f1 Hi Hr) as (fpk & Hsk & Hincl).
        assert (Hsame : post h a fp h tk).
        { split; [lia|]. split; [auto|]. exists fp. auto. }
        destruct (content h sub) as [|kv m] eqn:Econt.
        { exists h. split; [reflexivity|].
          inversion Hsk; subst. destruct t as [|[|kv' tk']]; try discriminate; exact Hsame. }
        assert (Htm : exists kv' tk', t = Map (kv' :: tk')).
        { inversion Hsk; subst. destruct t as [|tk']; [discriminate|]. simpl in *. subst tk'. eauto. }
        destruct Htm as (kv' & tk' & ->). cbn [tkids] in Hsk.
        pose proof (repk_get_none h _ _ _ "" Hsk) as Hn0.
        destruct (mget "" (kv :: m)) as [x|] eqn:E0.
        { assert (mget "" (kv' :: tk') <> None) by (intros E; apply Hn0 in E; discriminate).
          destruct (mget "" (kv' :: tk')); [|congruence]. exists h; auto. }
        assert (E0' : mget "" (kv' :: tk') = None) by (apply Hn0; reflexivity).
        rewrite E0'.
        destruct (isSharedShape h sub) eqn:Esh.
        -- (* clone *)
           destruct (shared_kids h sub _ f1 _ Hi Hr Econt Esh) as [(_ & Hf)|(sa & k & -> & Hm & Ht)];
             [discriminate|].
           injection Hm as -> ->. injection Ht as -> ->.
           set (b := next h).
           assert (Hbk : String.eqb exactKey k = false \/ String.eqb exactKey k = true) by (destruct (String.eqb exactKey k); auto).
           assert (Hab : a <> b) by (unfold b; lia).
           set (h0 := fst (alloc h [(k, None)])).
           set (h1 := upd h0 a (mset part (Some b) (mem h0 a))).
           set (h2 := upd h1 b (mset exactKey None (mem h1 b))).
           exists h2. split; [reflexivity|].
           assert (Ea0 : mem h0 a = mem h a) by (unfold h0, alloc; cbn [fst]; rewrite upd_other by (fold b; lia); reflexivity).
           assert (Ea2 : mem h2 a = mset part (Some b) (mem h a)).
           { unfold h2. rewrite upd_other by lia. unfold h1. rewrite upd_same, Ea0. reflexivity. }
           assert (Eb2 : mem h2 b = mset exactKey None [(k, None)]).
           { unfold h2. rewrite upd_same. unfold h1. rewrite upd_other by lia. unfold h0, alloc; cbn [fst].
             unfold b. rewrite upd_same. reflexivity. }
           assert (Eo : forall c, c < next h -> c <> a -> mem h2 c = mem h c).
           { intros c Hc1 Hc2. unfold h2. rewrite upd_other by (unfold b; lia). unfold h1. rewrite upd_other by lia.
             unfold h0, alloc; cbn [fst]. rewrite upd_other by lia. reflexivity. }
           assert (Hi2 : hinv h2).
           { unfold h2, h1. apply hinv_upd; [|unfold b; lia]. apply hinv_upd; [|lia]. unfold h0. apply hinv_alloc; exact Hi. }
           assert (Hn2' : next h2 = S (next h)) by reflexivity.
           assert (Hrb : rep h2 (Some b) (Map (mset exactKey Nil [(k, Nil)])) [b]).
           { constructor; [unfold b; destruct Hi as (_&_&?); lia| |repeat constructor; auto].
             rewrite Eb2. cbn [mset]. destruct (String.eqb exactKey k);
             repeat (change (@nil addr) with (@nil addr ++ [])%list; constructor; try constructor). }
           destruct (Hput h2 (Some b) (Map (mset exactKey Nil [(k, Nil)])) [b]) as (fp' & Hrk' & Hpp).
           { intros c Hc. apply Eo; [apply Hfr in Hc; lia|]. intros ->. apply Hna, in_or_app; auto. }
           { exact Hrb. }
           { intros x [<-|[]] Hx. apply Hfr in Hx. unfold b in Hx; lia. }
           split; [lia|]. split.
           { intros c Hc Hnin. apply Eo; [exact Hc|]. intros ->. apply Hnin; left; reflexivity. }
           exists fp'. split.
           { split; [exact Hi2|]. split; [rewrite Hn2'; lia|]. split; [rewrite Ea2; exact Hrk'|].
             split.
             - apply NoDup_cons_iff. split; [|eapply repk_nodup; eauto].
               rewrite Hpp. intros [E|Hin]; [congruence|]. apply Hna, in_or_app; auto.
             - rewrite Hpp. constructor; [unfold b; destruct Hi as (_&_&?); lia|].
               rewrite Forall_forall. intros c Hc. apply Hfr in Hc. lia. }
           { intros c Hc. rewrite Hpp in Hc. destruct Hc as [<-|Hc]; [right; unfold b; lia|].
             left. rewrite Hp. apply in_or_app; auto. }
        -- (* set the marker in place *)
           destruct (not_shared_map h sub _ f1 Hi Hr Esh) as (sa & tk2 & fk2 & -> & Ht & Hsa & -> & Hsk2 & Hnd2).
           injection Ht as <-. cbn [content] in Econt.
           set (h1 := upd h sa (mset exactKey None (mem h sa))).
           exists h1. cbn [store]. split; [reflexivity|].
           assert (Hsa2 : 2 <= sa < next h) by (apply Hf1; left; reflexivity).
           assert (Hsa_a : a <> sa) by (intros ->; apply Hna; left; reflexivity).
           assert (Eo : forall c, c <> sa -> mem h1 c = mem h c) by (intros c Hc; apply upd_other; exact Hc).
           apply NoDup_cons_iff in Hnd2. destruct Hnd2 as [Hsa_fk Hfk].
           assert (Hfk2 : forall c, In c fk2 -> mem h1 c = mem h c).
           { intros c Hc. apply Eo. intros ->. exact (Hsa_fk Hc). }
           assert (Hsub : exists fpx, repk h1 (mset exactKey None (mem h sa)) (mset exactKey Nil (kv' :: tk')) fpx
                               /\ (forall x, In x fpx -> In x fk2)).
           { destruct (mget exactKey (mem h sa)) as [y|] eqn:Ex.
             - destruct (repk_focus h _ _ _ exactKey y Hsk2 Ex) as (tx & fx & frx & _ & _ & Hpx & Hputx).
               destruct (Hputx h1 None Nil []) as (fpx & Hrx & Hpx2).
               + intros c Hc. apply Hfk2. rewrite Hpx. apply in_or_app; auto.
               + constructor.
               + intros x [].
               + exists fpx. split; [exact Hrx|]. intros x Hx. rewrite Hpx2 in Hx. rewrite Hpx. apply in_or_app; auto.
             - destruct (repk_add h _ _ _ exactKey h1 None Nil [] Hsk2 Ex) as (fpx & Hrx & Hpx2).
               + exact Hfk2.
               + constructor.
               + intros x [].
               + exists fpx. split; [exact Hrx|]. intros x Hx. rewrite Hpx2 in Hx. exact Hx. }
           destruct Hsub as (fpx & Hrx & Hfpx).
           assert (Hrsa : rep h1 (Some sa) (Map (mset exactKey Nil (kv' :: tk'))) (sa :: fpx)).
           { constructor; [lia| |].
             - unfold h1 at 2. rewrite upd_same. exact Hrx.
             - constructor; [intros Hc; apply Hsa_fk, Hfpx, Hc|eapply repk_nodup; eauto]. }
           destruct (Hput h1 (Some sa) (Map (mset exactKey Nil (kv' :: tk'))) (sa :: fpx)) as (fp' & Hrk' & Hpp).
           { intros c Hc. apply Eo. intros ->. apply (Hn3 sa); [left; reflexivity|exact Hc]. }
           { exact Hrsa. }
           { intros x Hx Hx2. apply (Hn3 x); [|exact Hx2]. destruct Hx as [<-|Hx]; [left; reflexivity|right; auto]. }
           assert (Hset : @mset hnode part (Some sa) (mem h a) = mem h a).
           { clear -Eget. revert Eget. induction (mem h a) as [|[k v] m IHm]; simpl; [discriminate|].
             destruct (String.eqb_spec part k); [intros [= ->]; subst; reflexivity|].
             intros Hg. rewrite IHm by exact Hg. reflexivity. }
           rewrite Hset in Hrk'.
           split; [reflexivity|]. split.
           { intros c Hc Hnin. apply Eo. intros ->. apply Hnin. right. rewrite Hp. left; reflexivity. }
           exists fp'. split.
           { split; [apply hinv_upd; [exact Hi|lia]|]. split; [cbn; lia|]. split; [rewrite Eo by exact Hsa_a; exact Hrk'|].
             split.
             - apply NoDup_cons_iff. split; [|eapply repk_nodup; eauto].
               rewrite Hpp. simpl. intros [E|Hin]; [congruence|].
               apply Hna. apply in_app_or in Hin. destruct Hin as [Hin|Hin]; [right|]; apply in_or_app; auto.
             - rewrite Hpp. rewrite Forall_forall. intros c Hc. cbn. destruct Hc as [<-|Hc]; [lia|].
               apply in_app_or in Hc. destruct Hc as [Hc|Hc]; [|apply Hfr; exact Hc].
               apply Hf1. right; auto. }
           { intros c Hc. rewrite Hpp in Hc. left. rewrite Hp. simpl in *. destruct Hc as [<-|Hc]; [left; reflexivity|].
             right. apply in_or_app. apply in_app_or in Hc. destruct Hc; auto. }
      * (* descend *)
        destruct (isSharedShape h sub) eqn:Esh.
        -- (* clone, then descend into the fresh map b *)
           set (m0 := match sub with None => [(exactKey, None)] | Some _ => content h sub end).
           assert (Halloc : (match sub with None => alloc h [(exactKey, None)] | Some _ => alloc h (content h sub) end)
                            = alloc h m0) by (unfold m0; destruct sub; reflexivity).
           rewrite Halloc.
           set (k0 := match t with Nil => [(exactKey, Nil)] | Map sk => sk end).
           match goal with |- exists h', _ /\ post _ _ _ h' ?X =>
             replace X with (mset part (Map (tins k0 (p2 :: rest))) tk) by (unfold k0; destruct t; reflexivity) end.
           assert (Hm0 : exists k, m0 = [(k, None)] /\ k0 = [(k, Nil)]).
           { destruct (shared_kids h sub _ f1 _ Hi Hr eq_refl Esh) as [(-> & ->)|(sa & k & -> & Hm & ->)].
             - exists exactKey; auto.
             - exists k. unfold m0, k0. rewrite Hm; auto. }
           destruct Hm0 as (k & Em0 & Ek0).
           set (b := next h).
           set (h0 := fst (alloc h m0)).
           set (h1 := upd h0 a (mset part (Some b) (mem h0 a))).
           assert (Hab : a <> b) by (unfold b; lia).
           assert (Ea0 : mem h0 a = mem h a) by (unfold h0, alloc; cbn [fst]; rewrite upd_other by (fold b; lia); reflexivity).
           assert (Ea1 : mem h1 a = mset part (Some b) (mem h a)) by (unfold h1; rewrite upd_same, Ea0; reflexivity).
           assert (Eb1 : mem h1 b = m0).
           { unfold h1. rewrite upd_other by lia. unfold h0, alloc; cbn [fst]. unfold b. rewrite upd_same; reflexivity. }
           assert (Eo : forall c, c < next h -> c <> a -> mem h1 c = mem h c).
           { intros c Hc1 Hc2. unfold h1. rewrite upd_other by lia.
             unfold h0, alloc; cbn [fst]. rewrite upd_other by lia. reflexivity. }
           assert (Hi1 : hinv h1).
           { unfold h1. apply hinv_upd; [|lia]. unfold h0. apply hinv_alloc; exact Hi. }
           assert (Hnx : next h1 = S (next h)) by reflexivity.
           destruct (IH h1 b k0 []) as (h' & Hadd & Hmono & Hag & fpb & Hib & Hfb).
           { exact Hst. }
           { split; [exact Hi1|]. split; [rewrite Hnx; unfold b; destruct Hi as (_&_&?); lia|].
             split; [|split; [repeat constructor; auto|constructor]].
             rewrite Eb1, Em0, Ek0. change (@nil addr) with (@nil addr ++ [])%list; repeat constructor. }
           exists h'. split.
           { unfold alloc in *. cbn [store]. exact Hadd. }
           assert (Eo' : forall c, c < next h -> c <> a -> mem h' c = mem h c).
           { intros c Hc1 Hc2. rewrite Hag; [apply Eo; auto|rewrite Hnx; lia|].
             intros [E|[]]. unfold b in E. lia. }
           assert (Ea' : mem h' a = mset part (Some b) (mem h a)).
           { rewrite Hag; [exact Ea1|rewrite Hnx; lia|]. intros [E|[]]. lia. }
           destruct Hib as (Hi' & Hb' & Hkb & Hndb & Hfb').
           destruct (Hput h' (Some b) (Map (tins k0 (p2 :: rest))) (b :: fpb)) as (fp' & Hrk' & Hpp).
           { intros c Hc. apply Eo'; [apply Hfr in Hc; lia|]. intros ->. apply Hna, in_or_app; auto. }
           { constructor; auto. unfold b; destruct Hi as (_&_&?); lia. }
           { intros x [<-|Hx] Hx2; [apply Hfr in Hx2; unfold b in Hx2; lia|].
             apply Hfb in Hx. destruct Hx as [[]|Hx]. apply Hfr in Hx2. rewrite Hnx in Hx. lia. }
           rewrite Hnx in *.
           split; [lia|]. split.
           { intros c Hc Hnin. apply Eo'; [exact Hc|]. intros ->. apply Hnin; left; reflexivity. }
           exists fp'. split.
           { split; [exact Hi'|]. split; [lia|]. split; [rewrite Ea'; exact Hrk'|]. split.
             - apply NoDup_cons_iff. split; [|eapply repk_nodup; eauto].
               rewrite Hpp. simpl. intros [E|Hin]; [congruence|].
               apply in_app_or in Hin. destruct Hin as [Hin|Hin].
               + apply Hfb in Hin. destruct Hin as [[]|Hin]. lia.
               + apply Hna, in_or_app; auto.
             - rewrite Hpp. rewrite Forall_forall. rewrite Forall_forall in Hfb'. intros c Hc. destruct Hc as [<-|Hc]; [exact Hb'|].
               apply in_app_or in Hc. destruct Hc as [Hc|Hc]; [auto|]. apply Hfr in Hc. lia. }
           { intros c Hc. rewrite Hpp in Hc. simpl in Hc. destruct Hc as [<-|Hc]; [right; unfold b; lia|].
             apply in_app_or in Hc. destruct Hc as [Hc|Hc].
             - apply Hfb in Hc. destruct Hc as [[]|Hc]. right; lia.
             - left. rewrite Hp. apply in_or_app; auto. }
        -- (* descend in place *)
           destruct (not_shared_map h sub _ f1 Hi Hr Esh) as (sa & tk2 & fk2 & -> & -> & Hsa & -> & Hsk2 & Hnd2).
           assert (Hsa2 : 2 <= sa < next h) by (apply Hf1; left; reflexivity).
           assert (Hsa_a : a <> sa) by (intros ->; apply Hna; left; reflexivity).
           destruct (IH h sa tk2 fk2) as (h' & Hadd & Hmono & Hag & fpb & Hib & Hfb).
           { exact Hst. }
           { split; [exact Hi|]. split; [exact Hsa2|]. split; [exact Hsk2|]. split; [exact Hnd2|].
             rewrite Forall_forall. intros c Hc. apply Hf1. right; exact Hc. }
           exists h'. split; [exact Hadd|].
           destruct Hib as (Hi' & Hb' & Hkb & Hndb & Hfb').
           assert (Ea' : mem h' a = mem h a).
           { apply Hag; [lia|]. intros Hin. apply Hna. apply in_or_app; left; exact Hin. }
           destruct (Hput h' (Some sa) (Map (tins tk2 (p2 :: rest))) (sa :: fpb)) as (fp' & Hrk' & Hpp).
           { intros c Hc. apply Hag; [apply Hfr in Hc; lia|]. intros Hin. apply (Hn3 c); assumption. }
           { constructor; auto. }
           { intros x [<-|Hx] Hx2; [apply (Hn3 sa); [left; reflexivity|exact Hx2]|].
             apply Hfb in Hx. destruct Hx as [Hx|Hx]; [apply (Hn3 x); [right; exact Hx|exact Hx2]|].
             apply Hfr in Hx2. lia. }
           assert (Hset : @mset hnode part (Some sa) (mem h a) = mem h a).
           { clear -Eget. revert Eget. induction (mem h a) as [|[k v] m IHm]; simpl; [discriminate|].
             destruct (String.eqb_spec part k); [intros [= ->]; subst; reflexivity|].
             intros Hg. rewrite IHm by exact Hg. reflexivity. }
           rewrite Hset in Hrk'.
           split; [lia|]. split.
           { intros c Hc Hnin. apply Hag; [exact Hc|]. intros Hin. apply Hnin. right. rewrite Hp. apply in_or_app; auto. }
           exists fp'. split.
           { split; [exact Hi'|]. split; [lia|]. split; [rewrite Ea'; exact Hrk'|]. split.
             - apply NoDup_cons_iff. split; [|eapply repk_nodup; eauto].
               rewrite Hpp. simpl. intros [E|Hin]; [congruence|].
               apply in_app_or in Hin. destruct Hin as [Hin|Hin].
               + apply Hfb in Hin. destruct Hin as [Hin|Hin]; [|lia]. apply Hna. right. apply in_or_app; auto.
               + apply Hna. right. apply in_or_app; auto.
             - rewrite Hpp. rewrite Forall_forall. rewrite Forall_forall in Hfb'. intros c Hc. destruct Hc as [<-|Hc]; [exact Hb'|].
               apply in_app_or in Hc. destruct Hc as [Hc|Hc]; [auto|]. apply Hfr in Hc. lia. }
           { intros c Hc. rewrite Hpp in Hc. simpl in Hc. rewrite Hp. destruct Hc as [<-|Hc]; [left; left; reflexivity|].
             apply in_app_or in Hc. destruct Hc as [Hc|Hc].
             - apply Hfb in Hc. destruct Hc as [Hc|Hc]; [left; right; apply in_or_app; auto|right; exact Hc].
             - left. right. apply in_or_app; auto. }
    + (* missing *)
      assert (Egt : mget part tk = None) by (apply Hnone; reflexivity).
      rewrite tins_cons, Egt.
      apply NoDup_cons_iff in Hnd. destruct Hnd as [Hna Hndf].
      (* a node without footprint put in place *)
      assert (Hleaf : forall n' t', (forall h2, hinv h2 -> rep h2 n' t' []) ->
                post h a fp (upd h a (mset part n' (mem h a))) (mset part t' tk)).
      { intros n' t' Hr'. set (h1 := upd h a (mset part n' (mem h a))).
        assert (Hi1 : hinv h1) by (apply hinv_upd; [exact Hi|lia]).
        destruct (repk_add h (mem h a) tk fp part h1 n' t' [] Hk Eget) as (fp' & Hrk' & Hpp).
        { intros c Hc. apply upd_other. intros ->. exact (Hna Hc). }
        { apply Hr'; exact Hi1. }
        { intros x []. }
        split; [reflexivity|]. split.
        { intros c Hc Hnin. apply upd_other. intros ->. apply Hnin; left; reflexivity. }
        exists fp'. split.
        { split; [exact Hi1|]. split; [cbn; lia|]. split; [unfold h1 at 2; rewrite upd_same; exact Hrk'|]. split.
          - apply NoDup_cons_iff. split; [rewrite Hpp; exact Hna|eapply repk_nodup; eauto].
          - rewrite Hpp. exact Hfp. }
        { intros c Hc. rewrite Hpp in Hc. left; exact Hc. } }
      (* a freshly allocated map *)
      assert (Hfresh : rest <> [] ->
                exists h', addParts (upd (fst (alloc h [])) a (mset part (Some (next h)) (mem (fst (alloc h [])) a)))
                             (Some (next h)) rest = OK h' /\
                           post h a fp h' (mset part (Map (tins [] rest)) tk)).
      { intros _. set (b := next h). set (h0 := fst (alloc h [])).
        set (h1 := upd h0 a (mset part (Some b) (mem h0 a))).
        assert (Hab : a <> b) by (unfold b; lia).
        assert (Ea0 : mem h0 a = mem h a) by (unfold h0, alloc; cbn [fst]; rewrite upd_other by (fold b; lia); reflexivity).
        assert (Ea1 : mem h1 a = mset part (Some b) (mem h a)) by (unfold h1; rewrite upd_same, Ea0; reflexivity).
        assert (Eb1 : mem h1 b = []).
        { unfold h1. rewrite upd_other by lia. unfold h0, alloc; cbn [fst]. unfold b. rewrite upd_same; reflexivity. }
        assert (Eo : forall c, c < next h -> c <> a -> mem h1 c = mem h c).
        { intros c Hc1 Hc2. unfold h1. rewrite upd_other by lia.
          unfold h0, alloc; cbn [fst]. rewrite upd_other by lia. reflexivity. }
        assert (Hi1 : hinv h1).
        { unfold h1. apply hinv_upd; [|lia]. unfold h0. apply hinv_alloc; exact Hi. }
        assert (Hnx : next h1 = S (next h)) by reflexivity.
        destruct (IH h1 b [] []) as (h' & Hadd & Hmono & Hag & fpb & Hib & Hfb).
        { exact Hst. }
        { split; [exact Hi1|]. split; [rewrite Hnx; unfold b; destruct Hi as (_&_&?); lia|].
          split; [rewrite Eb1; constructor|split; [repeat constructor; auto|constructor]]. }
        exists h'. split; [exact Hadd|].
        assert (Eo' : forall c, c < next h -> c <> a -> mem h' c = mem h c).
        { intros c Hc1 Hc2. rewrite Hag; [apply Eo; auto|rewrite Hnx; lia|].
          intros [E|[]]. unfold b in E. lia. }
        assert (Ea' : mem h' a = mset part (Some b) (mem h a)).
        { rewrite Hag; [exact Ea1|rewrite Hnx; lia|]. intros [E|[]]. lia. }
        destruct Hib as (Hi' & Hb' & Hkb & Hndb & Hfb').
        destruct (repk_add h (mem h a) tk fp part h' (Some b) (Map (tins [] rest)) (b :: fpb) Hk Eget) as (fp' & Hrk' & Hpp).
        { intros c Hc. rewrite Forall_forall in Hfp. apply Eo'; [apply Hfp in Hc; lia|]. intros ->. exact (Hna Hc). }
        { constructor; auto. unfold b; destruct Hi as (_&_&?); lia. }
        { intros x Hx Hx2. rewrite Forall_forall in Hfp. apply Hfp in Hx2. destruct Hx as [<-|Hx]; [unfold b in Hx2; lia|].
          apply Hfb in Hx. destruct Hx as [[]|Hx]. rewrite Hnx in Hx. lia. }
        rewrite Hnx in *.
        split; [lia|]. split.
        { intros c Hc Hnin. apply Eo'; [exact Hc|]. intros ->. apply Hnin; left; reflexivity. }
        exists fp'. split.
        { split; [exact Hi'|]. split; [lia|]. split; [rewrite Ea'; exact Hrk'|]. split.
          - apply NoDup_cons_iff. split; [|eapply repk_nodup; eauto].
            rewrite Hpp. simpl. intros [E|Hin]; [congruence|].
            apply in_app_or in Hin. destruct Hin as [Hin|Hin]; [|exact (Hna Hin)].
            apply Hfb in Hin. destruct Hin as [[]|Hin]. lia.
          - rewrite Hpp. rewrite Forall_forall. rewrite Forall_forall in Hfb', Hfp. intros c Hc.
            destruct Hc as [<-|Hc]; [exact Hb'|].
            apply in_app_or in Hc. destruct Hc as [Hc|Hc]; [auto|]. apply Hfp in Hc. lia. }
        { intros c Hc. rewrite Hpp in Hc. simpl in Hc. destruct Hc as [<-|Hc]; [right; unfold b; lia|].
          apply in_app_or in Hc. destruct Hc as [Hc|Hc]; [|left; exact Hc].
          apply Hfb in Hc. destruct Hc as [[]|Hc]. right; lia. } }
      destruct rest as [|p0 [|p1 rest]].
      * (* i == 0 *)
        exists (upd h a (mset part None (mem h a))). split; [reflexivity|].
        apply Hleaf. intros; constructor.
      * destruct (String.eqb_spec p0 "") as [->|Hp0].
        -- exists (upd h a (mset part (Some dotNode) (mem h a))). split.
           { cbn [store]. apply addParts_dot.
             destruct Hi as (Hd & _ & _). rewrite upd_other by (unfold dotNode; lia). exact Hd. }
           apply Hleaf. intros; constructor.
        -- destruct (String.eqb_spec p0 "*") as [->|Hp0'].
           ++ exists (upd h a (mset part (Some starNode) (mem h a))). split.
              { cbn [store]. apply addParts_star.
                destruct Hi as (_ & Hs & _). rewrite upd_other by (unfold starNode; lia). exact Hs. }
              apply Hleaf. intros; constructor.
           ++ destruct Hfresh as (h' & Hadd & Hpost); [discriminate|].
              exists h'. split; [exact Hadd|exact Hpost].
      * destruct Hfresh as (h' & Hadd & Hpost); [discriminate|].
        exists h'. split; [exact Hadd|exact Hpost].
Qed.

(* ------------------------------------------------------------------ *)
(** * Errors: a rule is rejected exactly by the star check, and nothing panics *)
Lemma shared_none h : isSharedShape h None = true.
Proof. reflexivity. Qed.

Lemma addParts_total : forall rp h a,
  if starsOk rp then exists h', addParts h (Some a) rp = OK h'
  else exists e, addParts h (Some a) rp = Fail e.
Proof.
  induction rp as [|part rest IH]; intros h a; [simpl; eauto|].
  cbn [starsOk addParts].
  destruct (badStar part _) eqn:Hb; [simpl; eauto|]. simpl negb. rewrite andb_true_l.
  cbn [content].
  destruct (mget part (mem h a)) as [sub|] eqn:Eg.
  - destruct rest as [|p2 rest].
    + simpl starsOk. destruct (content h sub) as [|kv m] eqn:Ec; [eauto|].
      destruct (mget "" (kv :: m)); [eauto|].
      destruct (isSharedShape h sub) eqn:Es; [simpl; eauto|].
      destruct sub as [sa|]; [simpl; eauto|discriminate Es].
    + destruct (isSharedShape h sub) eqn:Es.
      * destruct sub as [sa|]; cbn [alloc store]; apply IH.
      * destruct sub as [sa|]; [apply IH|discriminate].
  - destruct rest as [|p0 [|p1 rest]].
    + simpl; eauto.
    + destruct (String.eqb p0 ""); [cbn [store]; apply IH|].
      destruct (String.eqb p0 "*"); cbn [alloc store]; apply IH.
    + cbn [alloc store]; apply IH.
Qed.

(* ------------------------------------------------------------------ *)
(** * The walk refines [twalk] *)
Lemma rep_has h n t fp k : hinv h -> rep h n t fp ->
  (mget k (content h n) = None <-> mget k (tkids t) = None).
Proof.
  intros Hi Hr. destruct (content_rep h n t fp Hi Hr) as (fpk & Hk & _).
  eapply repk_get_none; eauto.
Qed.

Lemma repk_term h hk tk fp : repk h hk tk fp ->
  match hk with [] => true | m => match mget exactKey m with Some _ => true | None => false end end =
  match tk with [] => true | _ => match mget exactKey tk with Some _ => true | None => false end end.
Proof.
  intros Hk. pose proof (repk_get_none _ _ _ _ exactKey Hk) as Hx.
  destruct Hk as [|k n t hk tk fp1 fp2 H1 H2 H3]; [reflexivity|].
  destruct (mget exactKey ((k, n) :: hk)) as [x|], (mget exactKey ((k, t) :: tk)) as [y|]; try reflexivity.
  - destruct Hx as [_ Hx]. discriminate (Hx eq_refl).
  - destruct Hx as [Hx _]. discriminate (Hx eq_refl).
Qed.

Lemma walk_twalk : forall rp h n t fp m,
  hinv h -> rep h n t fp -> walk h n rp m = twalk t rp m.
Proof.
  induction rp as [|part rest IH]; intros h n t fp m Hi Hr.
  - cbn [walk twalk]. f_equal. unfold term, has.
    destruct (content_rep h n t fp Hi Hr) as (fpk & Hk & _).
    rewrite <- (repk_term _ _ _ _ Hk). destruct (content h n); reflexivity.
  - cbn [walk twalk]. 
    destruct (content_rep h n t fp Hi Hr) as (fpk & Hk & _).
    pose proof (repk_get_none _ _ _ _ part Hk) as Hx.
    destruct (mget part (content h n)) as [sub|] eqn:Eg.
    + destruct (repk_focus _ _ _ _ _ _ Hk Eg) as (ts & f1 & fr & Egt & Hrs & _).
      rewrite Egt. 
      pose proof (rep_has h sub ts f1 "" Hi Hrs) as H0.
      pose proof (rep_has h sub ts f1 "*" Hi Hrs) as H1.
      unfold has.
      destruct (mget "" (content h sub)), (mget "" (tkids ts)); try reflexivity;
        try (exfalso; intuition discriminate).
      destruct (mget "*" (content h sub)), (mget "*" (tkids ts));
        try (exfalso; intuition discriminate); destruct rest; try reflexivity; eapply IH; eauto.
    + assert (mget part (tkids t) = None) as -> by (apply Hx; reflexivity). reflexivity.
Qed.

(** The root after loading: represents the trie with all rules inserted. *)
Definition paths (sub : bool) (rules : list string) : list (list string) :=
  map (fun r => rev (split dot (normRule sub r))) rules.

Lemma addRules_post sub : forall rules h tk fp,
  inv_at h rootNode tk fp -> forall h', addRules sub h rules = OK h' ->
  exists fp', inv_at h' rootNode (fold_left tins (paths sub rules) tk) fp'.
Proof.
  induction rules as [|r rules IH]; intros h tk fp Hinv h' Hadd.
  - simpl in Hadd. injection Hadd as <-. simpl. eauto.
  - cbn [addRules] in Hadd. cbn [paths map fold_left].
    set (rp := rev (split dot (normRule sub r))) in *.
    pose proof (addParts_total rp h rootNode) as Ht.
    destruct (starsOk rp) eqn:Es.
    + destruct (addParts_post rp h rootNode tk fp Es Hinv) as (h1 & E1 & _ & _ & fp1 & Hinv1 & _).
      rewrite E1 in Hadd. eapply IH; eauto.
    + destruct Ht as (e & E). rewrite E in Hadd. discriminate.
Qed.

Lemma heap0_inv : inv_at heap0 rootNode [] [].
Proof.
  unfold inv_at, hinv, heap0, rootNode; simpl. repeat split; try lia; try constructor; auto. constructor.
Qed.

Lemma domainMatch_twalk sub rules db name :
  newDomainDB sub (OK rules) = OK db ->
  domainMatch db name =
  twalk (Map (fold_left tins (paths sub rules) []))
        (rev (split dot (lower (trim_suffix dot name)))) [].
Proof.
  intros H. destruct (addRules_post sub rules heap0 [] [] heap0_inv db H) as (fp & Hi & Ha & Hk & Hnd & _).
  unfold domainMatch. eapply walk_twalk; [exact Hi|]. 
  constructor; eauto.
Qed.

(* ------------------------------------------------------------------ *)
(** * Meaning of the pure trie *)
Definition prefix_of (p r : list string) : Prop := exists s, r = (p ++ s)%list.
Definition nodot (p : list string) : Prop := Forall (fun k => k <> exactKey) p.

Lemma tget_nil_none p : p <> [] -> tget (Map []) p = None.
Proof. destruct p; [congruence|reflexivity]. Qed.
Lemma tget_Nil_none p : p <> [] -> tget Nil p = None.
Proof. destruct p; [congruence|reflexivity]. Qed.

Lemma tins_other k0 t part rest : k0 <> part -> mget k0 (tins t (part :: rest)) = mget k0 t.
Proof.
  intros Hn. rewrite tins_cons.
  destruct (mget part t) as [sub|]; [|apply mget_mset_other; congruence].
  destruct rest; destruct sub as [|sk]; try reflexivity; try (apply mget_mset_other; congruence).
  destruct sk as [|kv sk]; [reflexivity|]. destruct (mget "" (kv :: sk)); [reflexivity|].
  apply mget_mset_other; congruence.
Qed.

Lemma tins_not_nil t rp : rp <> [] -> tins t rp <> [].
Proof.
  destruct rp as [|part rest]; [congruence|]. intros _. rewrite tins_cons.
  destruct (mget part t) as [sub|] eqn:E; [|apply mset_not_nil].
  assert (Ht : t <> []) by (intros ->; discriminate).
  destruct rest; destruct sub as [|sk]; try exact Ht; try apply mset_not_nil.
  destruct sk as [|kv sk]; [exact Ht|]. destruct (mget "" (kv :: sk)); [exact Ht|apply mset_not_nil].
Qed.

(** Which paths exist after an insertion. *)
Lemma tins_exists : forall rp t p,
  rp <> [] -> nodot rp -> p <> [] -> nodot p ->
  (tget (Map (tins t rp)) p <> None <-> tget (Map t) p <> None \/ prefix_of p rp).
Proof.
  induction rp as [|part rest IH]; intros t p Hrp Hnd Hp Hndp; [congruence|].
  destruct p as [|k p]; [congruence|]. cbn [tget tkids].
  apply Forall_cons_iff in Hnd. destruct Hnd as [Hpart Hnd].
  apply Forall_cons_iff in Hndp. destruct Hndp as [Hk Hndp].
  destruct (String.string_dec k part) as [->|Hne].
  2:{ rewrite tins_other by exact Hne. split; [auto|]. intros [H|(s & Hs)]; [exact H|].
      simpl in Hs. congruence. }
  assert (Hpre : prefix_of (part :: p) (part :: rest) <-> prefix_of p rest).
  { split; intros (s & Hs); exists s; simpl in *; congruence. }
  rewrite Hpre. rewrite tins_cons.
  destruct (mget part t) as [sub|] eqn:Eg.
  - destruct rest as [|p2 rest].
    + assert (Hpn : prefix_of p [] <-> p = []).
      { split; [intros (s & Hs); destruct p; [reflexivity|discriminate]|intros ->; exists []; reflexivity]. }
      rewrite Hpn.
      assert (Hsame : tget sub p <> None <-> tget sub p <> None \/ p = []).
      { split; [auto|]. intros [H| ->]; [exact H|discriminate]. }
      destruct sub as [|sk]; [rewrite Eg; exact Hsame|].
      destruct sk as [|kv sk]; [rewrite Eg; exact Hsame|].
      destruct (mget "" (kv :: sk)); [rewrite Eg; exact Hsame|].
      rewrite mget_mset_same. destruct p as [|k2 p]; [simpl; split; auto; discriminate|].
      apply Forall_cons_iff in Hndp. destruct Hndp as [Hk2 _].
      cbn [tget tkids]. rewrite mget_mset_other by congruence.
      split; [auto|]. intros [H|H]; [exact H|discriminate].
    + assert (Hput : forall sk, tget (Map sk) p = tget sub p \/ (sub = Nil /\ sk = [(exactKey, Nil)]) ->
                tget (Map (tins sk (p2 :: rest))) p <> None <->
                tget sub p <> None \/ prefix_of p (p2 :: rest)).
      { intros sk Hsk. destruct p as [|k2 p].
        - simpl. split; [intros _; right; exists (p2 :: rest); reflexivity|discriminate].
        - rewrite IH by (auto; discriminate).
          destruct Hsk as [->|(-> & ->)]; [reflexivity|].
          apply Forall_cons_iff in Hndp. destruct Hndp as [Hk2 _].
          cbn [tget tkids mget]. destruct (String.eqb_spec k2 exactKey); [congruence|]. reflexivity. }
      destruct sub as [|sk]; rewrite mget_mset_same; apply Hput; auto.
  - rewrite mget_mset_same. destruct rest as [|p2 rest].
    + destruct p as [|k2 p]; [simpl; split; [intros _; right; exists []; reflexivity|discriminate]|].
      cbn [tget tkids mget]. split; [congruence|]. intros [H|(s & Hs)]; [congruence|discriminate].
    + destruct p as [|k2 p]; [simpl; split; [intros _; right; exists (p2 :: rest); reflexivity|discriminate]|].
      rewrite IH by (auto; discriminate).
      split; [intros [H|H]; [rewrite tget_nil_none in H by discriminate; congruence|auto]|].
      intros [H|H]; [congruence|auto].
Qed.

Definition good (t : kids) (p : list string) : Prop :=
  exists s, tget (Map t) p = Some s /\ (term s = true \/ has "" s = true).

Lemma has_tins k0 t rp : has k0 (Map t) = true -> has k0 (Map (tins t rp)) = true.
Proof.
  destruct rp as [|part rest]; [auto|]. unfold has; cbn [tkids].
  destruct (String.string_dec k0 part) as [->|Hne]; [|rewrite tins_other by exact Hne; auto].
  rewrite tins_cons. destruct (mget part t) as [sub|] eqn:Eg; [|discriminate]. intros _.
  destruct rest; destruct sub as [|sk]; rewrite ?mget_mset_same, ?Eg; auto.
  destruct sk as [|kv sk]; [rewrite Eg; auto|]. destruct (mget "" (kv :: sk)); [rewrite Eg; auto|].
  rewrite mget_mset_same; auto.
Qed.

Lemma tins_good_new : forall rp t, rp <> [] -> nodot rp -> good (tins t rp) rp.
Proof.
  induction rp as [|part rest IH]; intros t Hrp Hnd; [congruence|].
  apply Forall_cons_iff in Hnd. destruct Hnd as [Hpart Hnd].
  unfold good. cbn [tget tkids]. rewrite tins_cons.
  destruct (mget part t) as [sub|] eqn:Eg.
  - destruct rest as [|p2 rest].
    + cbn [tget]. destruct sub as [|sk]; [rewrite Eg; eexists; split; [reflexivity|left; reflexivity]|].
      destruct sk as [|kv sk]; [rewrite Eg; eexists; split; [reflexivity|left; reflexivity]|].
      destruct (mget "" (kv :: sk)) eqn:E0.
      * rewrite Eg; eexists; split; [reflexivity|]. right. unfold has; cbn [tkids]; rewrite E0; reflexivity.
      * rewrite mget_mset_same. eexists; split; [reflexivity|]. left. unfold term, has; cbn [tkids].
        rewrite mget_mset_same.
        pose proof (mset_not_nil exactKey Nil (kv :: sk)). destruct (mset exactKey Nil (kv :: sk)); [congruence|reflexivity].
    + destruct sub as [|sk]; rewrite mget_mset_same; apply IH; auto; discriminate.
  - rewrite mget_mset_same. destruct rest as [|p2 rest].
    + cbn [tget]. eexists; split; [reflexivity|left; reflexivity].
    + apply IH; auto; discriminate.
Qed.

Lemma term_tins t rp : rp <> [] -> nodot rp -> term (Map (tins t rp)) = true -> term (Map t) = true.
Proof.
  intros Hrp Hnd. unfold term, has; cbn [tkids].
  pose proof (tins_not_nil t rp Hrp) as Hnn.
  destruct (tins t rp) as [|kv l] eqn:E; [congruence|]. rewrite <- E.
  destruct rp as [|part rest]; [congruence|].
  apply Forall_cons_iff in Hnd. destruct Hnd as [Hpart Hnd].
  rewrite tins_other by congruence. destruct t; [auto|]. auto.
Qed.

Lemma term_tins_keep t rp : rp <> [] -> nodot rp -> t <> [] -> term (Map t) = true -> term (Map (tins t rp)) = true.
Proof.
  intros Hrp Hnd Ht. unfold term, has; cbn [tkids].
  destruct t as [|kv0 t0] eqn:Et; [congruence|]. rewrite <- Et.
  pose proof (tins_not_nil t rp Hrp) as Hnn. subst t.
  destruct (tins (kv0 :: t0) rp) as [|kv l] eqn:E; [congruence|]. rewrite <- E.
  destruct rp as [|part rest]; [congruence|].
  apply Forall_cons_iff in Hnd. destruct Hnd as [Hpart Hnd].
  rewrite tins_other by congruence. auto.
Qed.

(** Terminal nodes after an insertion are old ones or the new rule. *)
Lemma tins_term : forall rp t p s,
  rp <> [] -> nodot rp -> p <> [] -> nodot p ->
  tget (Map (tins t rp)) p = Some s -> term s = true ->
  p = rp \/ exists s0, tget (Map t) p = Some s0 /\ term s0 = true.
Proof.
  induction rp as [|part rest IH]; intros t p s Hrp Hnd Hp Hndp Hget Hterm; [congruence|].
  destruct p as [|k p]; [congruence|]. cbn [tget tkids] in *.
  pose proof Hnd as Hnd0. pose proof Hndp as Hndp0.
  apply Forall_cons_iff in Hnd. destruct Hnd as [Hpart Hnd].
  apply Forall_cons_iff in Hndp. destruct Hndp as [Hk Hndp].
  destruct (String.string_dec k part) as [->|Hne].
  2:{ rewrite tins_other in Hget by exact Hne. right; eauto. }
  rewrite tins_cons in Hget.
  destruct (mget part t) as [sub|] eqn:Eg.
  - destruct rest as [|p2 rest].
    + destruct sub as [|sk]; [rewrite Eg in Hget; right; eauto|].
      destruct sk as [|kv sk]; [rewrite Eg in Hget; right; eauto|].
      destruct (mget "" (kv :: sk)); [rewrite Eg in Hget; right; eauto|].
      rewrite mget_mset_same in Hget. destruct p as [|k2 p]; [left; reflexivity|].
      right. exists s. split; [|exact Hterm]. cbn [tget tkids] in *.
      apply Forall_cons_iff in Hndp. destruct Hndp as [Hk2 _].
      rewrite mget_mset_other in Hget by congruence. exact Hget.
    + destruct sub as [|sk]; rewrite mget_mset_same in Hget.
      * destruct p as [|k2 p]; [right; exists Nil; split; reflexivity|].
        destruct (IH [(exactKey, Nil)] (k2 :: p) s) as [E|(s0 & Hs0 & Ht0)]; auto; try discriminate.
        -- left. congruence.
        -- cbn [tget tkids mget] in Hs0. apply Forall_cons_iff in Hndp. destruct Hndp as [Hk2 _].
           destruct (String.eqb_spec k2 exactKey); [congruence|discriminate].
      * destruct p as [|k2 p].
        -- right. exists (Map sk). split; [reflexivity|]. simpl in Hget. injection Hget as <-.
           apply (term_tins sk (p2 :: rest)); [discriminate|exact Hnd|exact Hterm].
        -- destruct (IH sk (k2 :: p) s) as [E|H]; auto; try discriminate. left; congruence.
  - rewrite mget_mset_same in Hget. destruct rest as [|p2 rest].
    + destruct p as [|k2 p]; [left; reflexivity|discriminate].
    + destruct p as [|k2 p].
      * simpl in Hget. injection Hget as <-. exfalso.
        assert (Hne : p2 :: rest <> []) by discriminate.
        unfold term, has in Hterm. cbn [tkids] in Hterm.
        pose proof (tins_not_nil [] (p2 :: rest) Hne) as Hnn.
        rewrite tins_other in Hterm by (apply Forall_cons_iff in Hnd; destruct Hnd; congruence).
        simpl mget in Hterm. destruct (tins [] (p2 :: rest)); [congruence|discriminate].
      * destruct (IH [] (k2 :: p) s) as [E|(s0 & Hs0 & _)]; auto; try discriminate.
        left; congruence.
Qed.

Lemma has_tget t k : has k t = true <-> tget t [k] <> None.
Proof. unfold has; simpl. destruct (mget k (tkids t)); split; congruence. Qed.

Lemma tget_app t p q : tget t (p ++ q) = match tget t p with Some s => tget s q | None => None end.
Proof. revert t; induction p as [|k p IH]; intros t; simpl; [reflexivity|]. destruct (mget k (tkids t)); auto. Qed.

Arguments mset : simpl never.
(** No reachable empty map node (empty leaves are nil). *)
Definition noempty (t : kids) : Prop :=
  forall p s, p <> [] -> tget (Map t) p = Some s -> s <> Map [].

Lemma noempty_nil : noempty [].
Proof. intros p s Hp H. rewrite tget_nil_none in H by exact Hp. discriminate. Qed.
Lemma noempty_exact : noempty [(exactKey, Nil)].
Proof.
  intros p s Hp H. destruct p as [|k p]; [congruence|]. cbn [tget tkids mget] in H.
  destruct (String.eqb k exactKey); [|discriminate]. destruct p; [|discriminate]. injection H as <-. discriminate.
Qed.
Lemma noempty_sub t part sk : noempty t -> mget part t = Some (Map sk) -> noempty sk /\ sk <> [].
Proof.
  intros Hn Hg. split.
  - intros p s Hp Hs. apply (Hn (part :: p)); [discriminate|]. cbn [tget tkids]. rewrite Hg. exact Hs.
  - intros ->. apply (Hn [part] (Map [])); [discriminate| |reflexivity]. cbn [tget tkids]. rewrite Hg. reflexivity.
Qed.
Lemma noempty_mset t part s0 :
  noempty t -> s0 <> Map [] -> (forall sk, s0 = Map sk -> noempty sk) -> noempty (mset part s0 t).
Proof.
  intros Hn H1 H2 p s Hp Hs. destruct p as [|k p]; [congruence|]. cbn [tget tkids] in Hs.
  destruct (String.string_dec k part) as [->|Hne].
  - rewrite mget_mset_same in Hs. destruct p as [|k2 p]; [simpl in Hs; congruence|].
    destruct s0 as [|sk]; [discriminate|]. apply (H2 sk eq_refl (k2 :: p)); [discriminate|exact Hs].
  - rewrite mget_mset_other in Hs by congruence. apply (Hn (k :: p)); [discriminate|exact Hs].
Qed.
Lemma tins_noempty : forall rp t, noempty t -> noempty (tins t rp).
Proof.
  induction rp as [|part rest IH]; intros t Hn; [exact Hn|]. rewrite tins_cons.
  assert (Hne : forall t0, rest <> [] -> Map (tins t0 rest) <> Map []).
  { intros t0 Hr E. injection E as E. exact (tins_not_nil t0 rest Hr E). }
  destruct (mget part t) as [sub|] eqn:Eg.
  - destruct rest as [|p2 rest].
    + destruct sub as [|sk]; [exact Hn|]. destruct sk as [|kv sk]; [exact Hn|].
      destruct (mget "" (kv :: sk)); [exact Hn|].
      destruct (noempty_sub _ _ _ Hn Eg) as [Hs _].
      apply noempty_mset; [exact Hn| |].
      * intros E. apply (mset_not_nil exactKey Nil (kv :: sk)). congruence.
      * intros sk' [= <-]. apply noempty_mset; [exact Hs|discriminate|discriminate].
    + destruct sub as [|sk].
      * apply noempty_mset; [exact Hn|apply Hne; discriminate|]. intros sk' [= <-]. apply IH, noempty_exact.
      * destruct (noempty_sub _ _ _ Hn Eg) as [Hs _].
        apply noempty_mset; [exact Hn|apply Hne; discriminate|]. intros sk' [= <-]. apply IH, Hs.
  - destruct rest as [|p2 rest]; [apply noempty_mset; [exact Hn|discriminate|discriminate]|].
    apply noempty_mset; [exact Hn|apply Hne; discriminate|]. intros sk' [= <-]. apply IH, noempty_nil.
Qed.

(** Nodes that decide a match keep deciding it. *)
Lemma tins_good_old : forall rp t p,
  noempty t -> rp <> [] -> nodot rp -> p <> [] -> nodot p -> good t p -> good (tins t rp) p.
Proof.
  induction rp as [|part rest IH]; intros t p Hno Hrp Hnd Hp Hndp Hg; [congruence|].
  destruct p as [|k p]; [congruence|]. unfold good in *. cbn [tget tkids] in *.
  apply Forall_cons_iff in Hnd. destruct Hnd as [Hpart Hnd].
  apply Forall_cons_iff in Hndp. destruct Hndp as [Hk Hndp].
  destruct (String.string_dec k part) as [->|Hne].
  2:{ rewrite tins_other by exact Hne. exact Hg. }
  destruct Hg as (s & Hget & Hor). 
  destruct (mget part t) as [sub|] eqn:Eg; [|discriminate].
  rewrite tins_cons, Eg. destruct rest as [|p2 rest].
  - destruct sub as [|sk]; [rewrite Eg; eauto|].
    destruct sk as [|kv sk]; [rewrite Eg; eauto|].
    destruct (mget "" (kv :: sk)) eqn:E0; [rewrite Eg; eauto|].
    rewrite mget_mset_same. destruct p as [|k2 p].
    + simpl. eexists; split; [reflexivity|]. left. unfold term, has; cbn [tkids]. rewrite mget_mset_same.
      pose proof (mset_not_nil exactKey Nil (kv :: sk)). destruct (mset exactKey Nil (kv :: sk)); [congruence|reflexivity].
    + apply Forall_cons_iff in Hndp. destruct Hndp as [Hk2 _].
      cbn [tget tkids] in *. rewrite mget_mset_other by congruence. eauto.
  - destruct sub as [|sk]; rewrite mget_mset_same.
    + destruct p as [|k2 p]; [|rewrite tget_Nil_none in Hget by discriminate; discriminate].
      simpl. eexists; split; [reflexivity|]. left.
      apply term_tins_keep; auto; discriminate.
    + destruct (noempty_sub _ _ _ Hno Eg) as [Hs Hs0].
      destruct p as [|k2 p]; [|apply IH; auto; try discriminate; eexists; eauto].
      simpl in *. injection Hget as <-. eexists; split; [reflexivity|].
      destruct Hor as [Ht|H0].
      * left. apply term_tins_keep; auto; discriminate.
      * right. apply has_tins; exact H0.
Qed.

(* ------------------------------------------------------------------ *)
(** * The trie of a list of rule paths *)
Definition pathOk (r : list string) : Prop := r <> [] /\ nodot r.

Record trieInv (rs : list (list string)) (t : kids) : Prop := {
  ti_ex : forall p, p <> [] -> nodot p ->
     (tget (Map t) p <> None <-> exists r, In r rs /\ prefix_of p r);
  ti_good : forall r, In r rs -> good t r;
  ti_term : forall p s, p <> [] -> nodot p -> tget (Map t) p = Some s -> term s = true -> In p rs;
  ti_noempty : noempty t
}.

Lemma trieInv_nil : trieInv [] [].
Proof.
  constructor.
  - intros p Hp _. rewrite tget_nil_none by exact Hp. split; [congruence|]. intros (r & [] & _).
  - intros r [].
  - intros p s Hp _ H. rewrite tget_nil_none in H by exact Hp. discriminate.
  - exact noempty_nil.
Qed.

Lemma trieInv_step rs t r :
  Forall pathOk rs -> pathOk r -> trieInv rs t -> trieInv (rs ++ [r]) (tins t r).
Proof.
  intros Hrs (Hr1 & Hr2) [He Hg Ht Hno]. constructor.
  - intros p Hp Hd. rewrite tins_exists by assumption. rewrite He by assumption. split.
    + intros [(r' & Hin & Hpre)|Hpre]; [exists r'|exists r]; split; auto; apply in_or_app; auto.
      right; left; reflexivity.
    + intros (r' & Hin & Hpre). apply in_app_or in Hin. destruct Hin as [Hin|[<-|[]]]; [left; eauto|right; exact Hpre].
  - intros r' Hin. apply in_app_or in Hin. destruct Hin as [Hin|[<-|[]]].
    + rewrite Forall_forall in Hrs. destruct (Hrs _ Hin). apply tins_good_old; auto.
    + apply tins_good_new; auto.
  - intros p s Hp Hd Hget Hterm. apply in_or_app.
    destruct (tins_term r t p s Hr1 Hr2 Hp Hd Hget Hterm) as [->|(s0 & Hs0 & Ht0)]; [right; left; reflexivity|].
    left. eapply Ht; eauto.
  - apply tins_noempty; exact Hno.
Qed.

Lemma trieInv_fold rs' : forall rs t,
  Forall pathOk rs -> Forall pathOk rs' -> trieInv rs t -> trieInv (rs ++ rs') (fold_left tins rs' t).
Proof.
  induction rs' as [|r rs' IH]; intros rs t H1 H2 Hi; simpl; [rewrite app_nil_r; exact Hi|].
  apply Forall_cons_iff in H2. destruct H2 as [Hr H2].
  replace (rs ++ r :: rs')%list with ((rs ++ [r]) ++ rs')%list by (rewrite <- app_assoc; reflexivity).
  apply IH; [apply Forall_app; split; auto|exact H2|apply trieInv_step; assumption].
Qed.

Lemma contains_dot_not_exact l : Forall (fun p => contains dot p = false) l -> nodot l.
Proof. apply Forall_impl. intros a H ->. discriminate H. Qed.

Lemma path_ok s : pathOk (rev (split dot s)).
Proof.
  split.
  - intros E. apply (split_not_nil dot s). rewrite <- (rev_involutive (split dot s)), E. reflexivity.
  - apply Forall_rev, contains_dot_not_exact, split_no_sep.
Qed.

Lemma paths_ok sub rules : Forall pathOk (paths sub rules).
Proof. unfold paths. rewrite Forall_map. apply Forall_forall. intros r _. apply path_ok. Qed.

Lemma rules_trieInv sub rules :
  trieInv (paths sub rules) (fold_left tins (paths sub rules) []).
Proof.
  apply (trieInv_fold (paths sub rules) [] []); [constructor|apply paths_ok|apply trieInv_nil].
Qed.

(* ------------------------------------------------------------------ *)
(** * What the walk reports *)
Lemma twalk_true : forall rp t m,
  rp <> [] -> snd (twalk t rp m) = true ->
  exists p1 p2 s, rp = (p1 ++ p2)%list /\ p1 <> [] /\ tget t p1 = Some s /\
    ((has "" s = true /\ fst (twalk t rp m) = matchedDomainParts "." (m ++ p1))
     \/ (p2 <> [] /\ has "*" s = true /\ fst (twalk t rp m) = matchedDomainParts "*." (m ++ p1))
     \/ (p2 = [] /\ term s = true /\ fst (twalk t rp m) = matchedDomainParts "" (m ++ p1))).
Proof.
  induction rp as [|part rest IH]; intros t m Hrp Hs; [congruence|].
  cbn [twalk] in *. destruct (mget part (tkids t)) as [sub|] eqn:Eg; [|discriminate].
  assert (Hg1 : tget t [part] = Some sub) by (cbn [tget]; rewrite Eg; reflexivity).
  destruct (has "" sub) eqn:E0.
  { exists [part], rest, sub. repeat split; auto; try discriminate. }
  destruct rest as [|p2 rest].
  - cbn [twalk] in *. exists [part], [], sub. repeat split; auto; try discriminate.
  - destruct (has "*" sub) eqn:E1.
    { exists [part], (p2 :: rest), sub. repeat split; auto; try discriminate.
      right; left. repeat split; auto; try discriminate. }
    destruct (IH sub (m ++ [part])%list) as (p1 & p3 & s & Heq & Hp1 & Hget & Hor); [discriminate|exact Hs|].
    exists (part :: p1), p3, s. repeat split.
    + simpl; congruence.
    + discriminate.
    + cbn [tget]. rewrite Eg. exact Hget.
    + rewrite <- app_assoc in Hor. exact Hor.
Qed.

Lemma twalk_complete : forall rp t m p1 p2 s,
  rp = (p1 ++ p2)%list -> p1 <> [] -> tget t p1 = Some s ->
  (has "" s = true \/ (p2 <> [] /\ has "*" s = true) \/ (p2 = [] /\ term s = true)) ->
  snd (twalk t rp m) = true.
Proof.
  induction rp as [|part rest IH]; intros t m p1 p2 s Heq Hp1 Hget Hor.
  - destruct p1; [congruence|discriminate].
  - destruct p1 as [|k p1]; [congruence|]. simpl in Heq. injection Heq as <- Heq.
    cbn [tget] in Hget. cbn [twalk]. destruct (mget part (tkids t)) as [sub|]; [|discriminate].
    destruct (has "" sub) eqn:E0; [reflexivity|].
    destruct p1 as [|k2 p1].
    + simpl in Hget. injection Hget as ->. simpl in Heq. subst rest.
      destruct Hor as [H|[(Hp2 & H1)|(-> & Ht)]]; [congruence| |exact Ht].
      destruct p2; [congruence|]. rewrite H1. reflexivity.
    + destruct rest as [|p3 rest]; [discriminate|].
      destruct (has "*" sub); [reflexivity|].
      eapply IH; eauto. discriminate.
Qed.
