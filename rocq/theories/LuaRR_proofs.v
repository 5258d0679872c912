From Coq Require Import Lia ZifyBool ZifyN ZifyNat Permutation.
From Verif Require Import Base Bytes LuaVal_model LuaRR_model LuaRR_spec LuaVal_proofs.
Local Open Scope nat_scope.

(** ** Where fields are *)
Fixpoint index_of (p : list nat) (fs : list ftype) (i : nat) (acc : list (string * (list nat * kind))) :=
  match fs with
  | [] => acc
  | FPlain n k :: fs' => index_of p fs' (S i) ((lower n, (p ++ [i], k)) :: acc)
  | _ :: fs' => index_of p fs' (S i) acc
  end.
Lemma fieldsFor_flat p fs : flat fs -> fieldsFor (FStruct fs) p = index_of p fs 0 [].
Proof.
  cbn [fieldsFor]. generalize 0 (@nil (string * (list nat * kind))). induction fs as [|f fs IH]; intros i acc F; [reflexivity|].
  pose proof (Forall_inv F) as H. apply Forall_inv_tail in F. destruct f as [|n k|l]; [apply IH, F|apply IH, F|destruct H].
Qed.
Lemma find_out p name : forall fs i acc, ~ In name (plain_names fs) -> find_field name (index_of p fs i acc) = find_field name acc.
Proof.
  induction fs as [|f fs IH]; intros i acc N; [reflexivity|]. destruct f as [|n k|l]; cbn [index_of].
  - apply IH, N.
  - rewrite IH; [|intros I; apply N; right; exact I]. cbn [find_field]. destruct (String.eqb_spec name (lower n)) as [->|]; [|reflexivity].
    exfalso. apply N. left. reflexivity.
  - apply IH, N.
Qed.
Lemma find_in p : forall fs i acc j n k, NoDup (plain_names fs) -> nth_error fs j = Some (FPlain n k) ->
  find_field (lower n) (index_of p fs i acc) = Some (p ++ [i + j], k).
Proof.
  induction fs as [|f fs IH]; intros i acc j n k ND E; [destruct j; discriminate|].
  destruct j as [|j].
  - injection E as ->. cbn [index_of]. cbn in ND. inversion ND as [|? ? H1 H2]; subst. rewrite find_out by exact H1.
    cbn [find_field]. rewrite String.eqb_refl, Nat.add_0_r. reflexivity.
  - cbn [nth_error] in E. replace (i + S j) with (S i + j) by lia. destruct f as [|n' k'|l]; cbn [index_of]; apply IH; try exact E; try exact ND.
    cbn in ND. inversion ND; assumption.
Qed.

Fixpoint both (fs : list ftype) (vs : list fval) : list (string * kind * fval) :=
  match fs, vs with f :: fs', x :: vs' => members f x ++ both fs' vs' | _, _ => [] end.
Lemma members_struct fs vs : members (FStruct fs) (VStruct vs) = both fs vs.
Proof. cbn [members]. revert vs. induction fs as [|f fs IH]; intros [|v vs]; reflexivity. Qed.

Lemma both_in fs vs g k v : flat fs -> In (g, k, v) (both fs vs) -> exists j, nth_error fs j = Some (FPlain g k) /\ nth_error vs j = Some v.
Proof.
  intros F. revert vs. induction fs as [|f fs IH]; intros vs I; [destruct I|]. destruct vs as [|x vs]; [destruct I|].
  pose proof (Forall_inv F) as H. apply Forall_inv_tail in F. cbn [both] in I. apply in_app_iff in I. destruct I as [I|I].
  - destruct f as [|n k'|l]; [destruct I| |destruct H]. destruct I as [I|[]]. injection I as -> -> ->. exists 0. split; reflexivity.
  - destruct (IH F vs I) as (j & A & B). exists (S j). split; assumption.
Qed.
Lemma both_at fs vs j g k : matches fs vs -> nth_error fs j = Some (FPlain g k) ->
  exists v a b, nth_error vs j = Some v /\ typed k v /\ both fs vs = a ++ (g, k, v) :: b /\
    forall v', typed k v' -> both fs (put_nth j v' vs) = a ++ (g, k, v') :: b /\ matches fs (put_nth j v' vs).
Proof.
  intros M. revert j. induction M as [|f v fs vs T M IH]; intros j E; [destruct j; discriminate|].
  destruct j as [|j].
  - injection E as ->. exists v, [], (both fs vs). split; [reflexivity|]. split; [exact T|]. split; [reflexivity|]. intros v' T'. split; [reflexivity|].
    constructor; assumption.
  - destruct (IH j E) as (x & a & b & N & TX & A & B). exists x, (members f v ++ a), b. split; [exact N|]. split; [exact TX|].
    split; [cbn [both]; rewrite A, <- app_assoc; reflexivity|]. intros v' T'. destruct (B v' T') as [B1 B2]. split.
    + cbn [put_nth both]. rewrite B1, <- app_assoc. reflexivity.
    + constructor; assumption.
Qed.
Lemma plain_nth fs n : In n (plain_names fs) -> exists j g k, nth_error fs j = Some (FPlain g k) /\ lower g = n.
Proof.
  intros I. apply in_flat_map in I. destruct I as (f & I & H). destruct f as [|g k|l]; [destruct H| |destruct H]. destruct H as [H|[]].
  apply In_nth_error in I. destruct I as (j & J). exists j, g, k. split; assumption.
Qed.
Lemma nth_plain fs j g k : nth_error fs j = Some (FPlain g k) -> In (lower g) (plain_names fs).
Proof. intros E. apply nth_error_In in E. apply in_flat_map. exists (FPlain g k). split; [exact E|left; reflexivity]. Qed.

Definition put_field (r : rr) (index : list nat) (x : fval) : rr := RR (rr_hdr r) (rr_type r) (setByIndex (rr_vals r) index x).

(** Struct types of the library: flat, or one embedded struct *)
Lemma cases r : record_ok r -> exists fs vs, flat fs /\ names_ok fs /\ matches fs vs /\
  (rr_type r = fs /\ rr_vals r = vs \/ rr_type r = [FStruct fs] /\ rr_vals r = [VStruct vs]).
Proof.
  intros (T & M & _). destruct T as [[F N]|(fs & E & F & N)]; destruct M as [M|(fs' & vs & E1 & E2 & M)].
  - exists (rr_type r), (rr_vals r). split; [exact F|]. split; [exact N|]. split; [exact M|]. left. split; reflexivity.
  - rewrite E1 in F. apply Forall_inv in F. destruct F.
  - rewrite E in M. exfalso. inversion M as [|? ? ? ? X ? ]; subst. destruct X.
  - assert (fs' = fs) by congruence. subst fs'. exists fs, vs. split; [exact F|]. split; [exact N|]. split; [exact M|]. right. split; assumption.
Qed.
Lemma locate r g k v : record_ok r -> In (g, k, v) (fields r) ->
  exists index a b, find_field (lower g) (rrDB (rr_type r)) = Some (index, k) /\ fieldByIndex (rr_vals r) index = Some v /\ typed k v /\
    fields r = a ++ (g, k, v) :: b /\ ~ In (lower g) (""%string :: header_names) /\
    forall v', typed k v' -> fields (put_field r index v') = a ++ (g, k, v') :: b /\ record_ok (put_field r index v').
Proof.
  intros OK I. pose proof OK as (T & _ & HB). destruct (cases r OK) as (fs & vs & F & (ND & HN) & M & [[E1 E2]|[E1 E2]]).
  - unfold fields in *. rewrite members_struct, E1, E2 in *. destruct (both_in fs vs g k v F I) as (j & A & B).
    destruct (both_at fs vs j g k M A) as (v0 & a & b & N & TV & X & Y). assert (v0 = v) by congruence. subst v0.
    exists [j], a, b. unfold rrDB. rewrite (fieldsFor_flat [] fs F), (find_in [] fs 0 [] j g k ND A). split; [reflexivity|].
    split; [exact B|]. split; [exact TV|]. split; [exact X|]. split; [apply HN, (nth_plain fs j g k A)|].
    intros v' T'. destruct (Y v' T') as [Y1 Y2]. unfold put_field. cbn [rr_type rr_vals setByIndex]. rewrite members_struct, E1, E2. split; [exact Y1|].
    split; [exact T|]. split; [left; cbn [rr_type rr_vals]; exact Y2|exact HB].
  - unfold fields in *. rewrite members_struct, E1, E2 in *. cbn [both] in *. rewrite members_struct, app_nil_r in *.
    destruct (both_in fs vs g k v F I) as (j & A & B).
    destruct (both_at fs vs j g k M A) as (v0 & a & b & N & TV & X & Y). assert (v0 = v) by congruence. subst v0.
    assert (DB : rrDB [FStruct fs] = index_of [0] fs 0 []) by exact (fieldsFor_flat [0] fs F).
    exists [0; j], a, b. rewrite DB, (find_in [0] fs 0 [] j g k ND A). split; [reflexivity|].
    split; [exact B|]. split; [exact TV|]. split; [exact X|]. split; [apply HN, (nth_plain fs j g k A)|].
    intros v' T'. destruct (Y v' T') as [Y1 Y2]. unfold put_field. cbn [rr_type rr_vals]. rewrite E1, E2. cbn [setByIndex nth_error put_nth].
    rewrite members_struct. cbn [both]. rewrite members_struct, app_nil_r. split; [exact Y1|].
    split; [exact T|]. split; [|exact HB]. right. exists fs, (put_nth j v' vs). split; [reflexivity|]. split; [reflexivity|exact Y2].
Qed.
Lemma located r name index k : record_ok r -> find_field name (rrDB (rr_type r)) = Some (index, k) -> exists g v, lower g = name /\ In (g, k, v) (fields r).
Proof.
  intros OK E. destruct (cases r OK) as (fs & vs & F & (ND & HN) & M & C).
  assert (X : exists p, fieldsFor (FStruct (rr_type r)) [] = index_of p fs 0 [] /\ fields r = both fs vs).
  { unfold fields. rewrite members_struct. destruct C as [[E1 E2]|[E1 E2]]; rewrite E1, E2.
    - exists []. split; [apply fieldsFor_flat, F|reflexivity].
    - exists [0]. split; [exact (fieldsFor_flat [0] fs F)|]. cbn [both]. rewrite members_struct, app_nil_r. reflexivity. }
  destruct X as (p & X1 & X2). unfold rrDB in E. rewrite X1 in E.
  destruct (in_dec string_dec name (plain_names fs)) as [I|N]; [|rewrite find_out in E by exact N; discriminate].
  destruct (plain_nth fs name I) as (j & g & k' & J & <-). rewrite (find_in p fs 0 [] j g k' ND J) in E. injection E as E0 ->.
  destruct (both_at fs vs j g k M J) as (v & a & b & _ & _ & B & _). exists g, v. split; [reflexivity|]. rewrite X2, B. apply in_elt.
Qed.

Lemma columns_flat fs vs g k : matches fs vs -> (In (g, k) (flat_map columns fs) <-> exists v, In (g, k, v) (both fs vs)).
Proof.
  intros M. induction M as [|f v fs vs T M IH]; [split; [intros []|intros [v []]]|]. cbn [flat_map both]. rewrite in_app_iff, IH.
  assert (H : In (g, k) (columns f) <-> exists v', In (g, k, v') (members f v)).
  { destruct f as [|n k'|l]; cbn [columns members In]; [split; [intros []|intros [v' []]]| |destruct T].
    split; [intros [E|[]]; exists v; left; congruence|intros [v' [E|[]]]; left; congruence]. }
  rewrite H. split.
  - intros [[v' I]|[v' I]]; exists v'; apply in_app_iff; auto.
  - intros [v' I]. apply in_app_iff in I. destruct I as [I|I]; eauto.
Qed.
Lemma columns_fields r g k : record_ok r -> (In (g, k) (columns (FStruct (rr_type r))) <-> exists v, In (g, k, v) (fields r)).
Proof.
  intros OK. destruct (cases r OK) as (fs & vs & F & _ & M & [[E1 E2]|[E1 E2]]); unfold fields; rewrite members_struct, E1, E2.
  - apply columns_flat, M.
  - cbn [both]. rewrite members_struct, app_nil_r. rewrite <- (columns_flat fs vs g k M). cbn. rewrite app_nil_r. reflexivity.
Qed.

Section Props.
Variable far : N -> num -> N.
Variable ipString : bytes -> string.
Variable parseIP : string -> option bytes.
Notation getField := (getField ipString).
Notation setField := (setField far parseIP).
Notation get := (get ipString).
Notation set := (set far parseIP).
Notation newindex := (newindex far parseIP).

(** ** Values *)
Lemma getField_shows k v : typed k v -> k <> KOpaque -> exists lv, getField k v = Some lv /\ shows ipString v lv.
Proof using ipString. clear far parseIP.
  intros T N. destruct k, v; try contradiction; cbn.
  - destruct ip; eexists; (split; [reflexivity|constructor]).
  - eexists; (split; [reflexivity|constructor]).
  - eexists; (split; [reflexivity|constructor]). apply (of_uint_small n 8); [lia|exact T].
  - eexists; (split; [reflexivity|constructor]). apply (of_uint_small n 16); [lia|exact T].
  - eexists; (split; [reflexivity|constructor]). apply (of_uint_small n 32); [lia|exact T].
  - eexists; (split; [reflexivity|constructor]). apply of_uint_close.
  - eexists; (split; [reflexivity|constructor]). cbn in T. induction T as [|n l T L IH]; [constructor|]. constructor; [|exact IH].
    eexists; split; [reflexivity|]. apply (of_uint_small n 16); [lia|exact T].
  - eexists; (split; [reflexivity|constructor]).
  - eexists; (split; [reflexivity|constructor]). clear T. induction l as [|a l IH]; [constructor|]. constructor; [reflexivity|exact IH].
Qed.
Lemma strings_iff l : (exists x, strings l = Some x) <-> forall v, In v l -> exists s, v = LStr s.
Proof using. clear far ipString parseIP.
  induction l as [|v l IH]; cbn [strings]; [split; [intros _ v []|eauto]|]. split.
  - intros [x E]. destruct v; try discriminate. destruct (strings l) as [y|]; [|discriminate]. intros v [<-|I]; [eauto|]. apply (proj1 IH); eauto.
  - intros H. destruct (H v (or_introl eq_refl)) as [s ->]. destruct (proj2 IH) as [x ->]; [intros u U; apply H; right; exact U|]. eexists; reflexivity.
Qed.
Lemma numbers_iff w l : (exists x, numbers far w l = Some x) <-> forall v, In v l -> exists s, v = LNum s.
Proof using far. clear ipString parseIP.
  induction l as [|v l IH]; cbn [numbers]; [split; [intros _ v []|eauto]|]. split.
  - intros [x E]. destruct v; try discriminate. destruct (numbers far w l) as [y|]; [|discriminate]. intros v [<-|I]; [eauto|]. apply (proj1 IH); eauto.
  - intros H. destruct (H v (or_introl eq_refl)) as [s ->]. destruct (proj2 IH) as [x ->]; [intros u U; apply H; right; exact U|]. eexists; reflexivity.
Qed.
Lemma options_iff l : (exists x, options l = Some x) <-> forall v, In v l -> exists s, v = LUser (ROption s).
Proof using. clear far ipString parseIP.
  induction l as [|v l IH]; cbn [options]; [split; [intros _ v []|eauto]|]. split.
  - intros [x E]. destruct v as [| | | | |[]|]; try discriminate. destruct (options l) as [y|]; [|discriminate]. intros v [<-|I]; [eauto|]. apply (proj1 IH); eauto.
  - intros H. destruct (H v (or_introl eq_refl)) as [s ->]. destruct (proj2 IH) as [x ->]; [intros u U; apply H; right; exact U|]. eexists; reflexivity.
Qed.
Lemma strings_map l x : strings l = Some x -> l = map LStr x.
Proof using. clear far ipString parseIP.
  revert x. induction l as [|v l IH]; cbn [strings]; intros x E; [injection E as <-; reflexivity|]. destruct v; try discriminate.
  destruct (strings l) as [y|]; [|discriminate]. injection E as <-. cbn. rewrite (IH y eq_refl). reflexivity.
Qed.
Lemma options_map l x : options l = Some x -> l = map (fun a => LUser (ROption a)) x.
Proof using. clear far ipString parseIP.
  revert x. induction l as [|v l IH]; cbn [options]; intros x E; [injection E as <-; reflexivity|]. destruct v as [| | | | |[]|]; try discriminate.
  destruct (options l) as [y|]; [|discriminate]. injection E as <-. cbn. rewrite (IH y eq_refl). reflexivity.
Qed.
Lemma numbers_stores l x : numbers far 16 l = Some x -> Forall2 (fun v n => exists y, v = LNum y /\ n = uint far 16 y) l x.
Proof using far. clear ipString parseIP.
  revert x. induction l as [|v l IH]; cbn [numbers]; intros x E; [injection E as <-; constructor|]. destruct v; try discriminate.
  destruct (numbers far 16 l) as [y|]; [|discriminate]. injection E as <-. constructor; [eauto|]. apply IH; reflexivity.
Qed.
Lemma setField_fits k v : (exists x, setField k v = Some x) <-> fits parseIP k v.
Proof using far parseIP. clear ipString.
  split.
  - intros [x E]. destruct k, v; try discriminate; cbn in E; try (constructor; fail).
    + destruct (parseIP s) as [ip|] eqn:P; [|discriminate]. econstructor; exact P.
    + constructor. apply (numbers_iff 16). destruct (numbers far 16 l); [eauto|discriminate].
    + constructor. apply strings_iff. destruct (strings l); [eauto|discriminate].
    + constructor. apply options_iff. destruct (options l); [eauto|discriminate].
  - intros F. destruct F as [s|x|x|x|x|l F|l F| |s ip P|l F]; cbn; try (eexists; reflexivity).
    + apply (numbers_iff 16) in F. destruct F as [y ->]. eexists; reflexivity.
    + apply strings_iff in F. destruct F as [y ->]. eexists; reflexivity.
    + rewrite P. eexists; reflexivity.
    + apply options_iff in F. destruct F as [y ->]. eexists; reflexivity.
Qed.
Lemma setField_takes k v x : setField k v = Some x -> typed k x /\ takes parseIP v x.
Proof using far parseIP. clear ipString.
  intros E. destruct k, v; try discriminate; cbn [LuaRR_model.setField] in E.
  - injection E as <-. split; [exact I|constructor].
  - destruct (parseIP s) as [ip|] eqn:P; [|discriminate]. injection E as <-. split; [exact I|constructor; exact P].
  - injection E as <-. split; [exact I|constructor].
  - assert (S : stores 8 x0 (uint far 64 x0 mod 2 ^ 8)) by (apply uint_cut; lia). assert (x = VU8 (uint far 64 x0 mod 2 ^ 8)) by congruence. subst x.
    split; [apply S|constructor; exact S].
  - assert (S : stores 16 x0 (uint far 64 x0 mod 2 ^ 16)) by (apply uint_cut; lia). assert (x = VU16 (uint far 64 x0 mod 2 ^ 16)) by congruence. subst x.
    split; [apply S|constructor; exact S].
  - assert (S : stores 32 x0 (uint far 64 x0 mod 2 ^ 32)) by (apply uint_cut; lia). assert (x = VU32 (uint far 64 x0 mod 2 ^ 32)) by congruence. subst x.
    split; [apply S|constructor; exact S].
  - assert (S : stores 64 x0 (uint far 64 x0)) by apply uint_stores. assert (x = VU64 (uint far 64 x0)) by congruence. subst x.
    split; [apply S|constructor; exact S].
  - destruct (numbers far 16 l) as [y|] eqn:N; [|discriminate]. injection E as <-. apply numbers_stores in N. split.
    + cbn. induction N as [|a b l l' (z & _ & ->) N IH]; [constructor|]. constructor; [apply uint_bound|exact IH].
    + constructor. induction N as [|a b l l' (z & -> & ->) N IH]; [constructor|]. constructor; [|exact IH]. eexists; split; [reflexivity|]. apply uint_stores.
  - destruct (strings l) as [y|] eqn:N; [|discriminate]. injection E as <-. rewrite (strings_map _ _ N). split; [exact I|constructor].
  - destruct (options l) as [y|] eqn:N; [|discriminate]. injection E as <-. rewrite (options_map _ _ N). split; [exact I|constructor].
Qed.

(** ** Reading *)
Lemma get_header r : get r "name" = Some (LStr (h_name (rr_hdr r))) /\ get r "rtype" = Some (LNum (of_uint (h_type (rr_hdr r)))) /\
  get r "class" = Some (LNum (of_uint (h_class (rr_hdr r)))) /\ get r "ttl" = Some (LNum (of_uint (h_ttl (rr_hdr r)))) /\
  get r "rdlength" = Some (LNum (of_uint (h_rdlen (rr_hdr r)))).
Proof using ipString. clear far parseIP. repeat split. Qed.
Lemma get_other r name : ~ In name header_names ->
  get r name = match find_field name (rrDB (rr_type r)) with
    | None => None | Some (index, k) => match fieldByIndex (rr_vals r) index with Some v => getField k v | None => None end end.
Proof using ipString. clear far parseIP.
  intros N. unfold LuaRR_model.get. cbn [header_names In] in N.
  repeat (match goal with |- context [String.eqb name ?x] => destruct (String.eqb_spec name x); [exfalso; apply N; subst name; tauto|] end). reflexivity.
Qed.
Lemma read_header r : record_ok r -> get r "name" = Some (LStr (h_name (rr_hdr r))) /\
  (exists x, get r "rtype" = Some (LNum x) /\ denotes x (Z.of_N (h_type (rr_hdr r)))) /\
  (exists x, get r "class" = Some (LNum x) /\ denotes x (Z.of_N (h_class (rr_hdr r)))) /\
  (exists x, get r "ttl" = Some (LNum x) /\ denotes x (Z.of_N (h_ttl (rr_hdr r)))) /\
  (exists x, get r "rdlength" = Some (LNum x) /\ denotes x (Z.of_N (h_rdlen (rr_hdr r)))).
Proof using ipString. clear far parseIP.
  intros (_ & _ & A & B & C & D). destruct (get_header r) as (G1 & G2 & G3 & G4 & G5). split; [exact G1|].
  split; [eexists; split; [exact G2|apply (of_uint_small _ 16); [lia|exact A]]|]. split; [eexists; split; [exact G3|apply (of_uint_small _ 16); [lia|exact B]]|].
  split; [eexists; split; [exact G4|apply (of_uint_small _ 32); [lia|exact C]]|]. eexists; split; [exact G5|apply (of_uint_small _ 16); [lia|exact D]].
Qed.
Lemma read_field r g k v : record_ok r -> In (g, k, v) (fields r) -> k <> KOpaque -> exists lv, get r (lower g) = Some lv /\ shows ipString v lv.
Proof using ipString. clear far parseIP.
  intros OK I N. destruct (locate r g k v OK I) as (index & a & b & F & B & T & _ & H & _).
  rewrite get_other by (intros X; apply H; right; exact X). rewrite F, B. apply getField_shows; assumption.
Qed.
Lemma read_none r name : record_ok r -> (get r name = None <-> ~ In name header_names /\ forall g k v, In (g, k, v) (fields r) -> lower g = name -> k = KOpaque).
Proof using ipString. clear far parseIP.
  intros OK. split.
  - intros E. split.
    + intros I. destruct (get_header r) as (G1 & G2 & G3 & G4 & G5). cbn in I. repeat destruct I as [<-|I]; congruence.
    + intros g k v I <-. destruct k; try reflexivity; (destruct (read_field _ _ _ _ OK I) as (lv & G & _); [discriminate|congruence]).
  - intros [N H]. rewrite get_other by exact N. destruct (find_field name (rrDB (rr_type r))) as [[index k]|] eqn:F; [|reflexivity].
    destruct (located r name index k OK F) as (g & v & <- & I). pose proof (H g k v I eq_refl) as ->.
    destruct (locate r g KOpaque v OK I) as (index' & a & b & F' & B & T & _). assert (index' = index) by congruence. subst index'. rewrite B.
    destruct v; reflexivity || contradiction.
Qed.

(** ** Writing *)
Definition with_name s h := Hdr s (h_type h) (h_class h) (h_ttl h) (h_rdlen h).
Definition with_class n h := Hdr (h_name h) (h_type h) n (h_ttl h) (h_rdlen h).
Definition with_ttl n h := Hdr (h_name h) (h_type h) (h_class h) n (h_rdlen h).
Lemma set_header r v :
  set r "name" v = match v with LStr s => (RR (with_name s (rr_hdr r)) (rr_type r) (rr_vals r), true) | _ => (r, false) end /\
  set r "rtype" v = (r, false) /\
  set r "class" v = match v with LNum x => (RR (with_class (uint far 16 x) (rr_hdr r)) (rr_type r) (rr_vals r), true) | _ => (r, false) end /\
  set r "ttl" v = match v with LNum x => (RR (with_ttl (uint far 32 x) (rr_hdr r)) (rr_type r) (rr_vals r), true) | _ => (r, false) end /\
  set r "rdlength" v = (r, false).
Proof using far parseIP. clear ipString. repeat split. Qed.
Lemma set_other r name v : ~ In name header_names ->
  set r name v = match find_field name (rrDB (rr_type r)) with
    | None => (r, false) | Some (index, k) => match setField k v with Some x => (put_field r index x, true) | None => (r, false) end end.
Proof using far parseIP. clear ipString.
  intros N. unfold LuaRR_model.set. cbn [header_names In] in N.
  repeat (match goal with |- context [String.eqb name ?x] => destruct (String.eqb_spec name x); [exfalso; apply N; subst name; tauto|] end). reflexivity.
Qed.
Lemma set_keeps r name v : rr_type (fst (set r name v)) = rr_type r.
Proof using far parseIP. clear ipString.
  destruct (in_dec string_dec name header_names) as [I|N].
  - destruct (set_header r v) as (S1 & S2 & S3 & S4 & S5). cbn in I. repeat destruct I as [<-|I]; [rewrite S1|rewrite S2|rewrite S3|rewrite S4|rewrite S5|destruct I]; destruct v; reflexivity.
  - rewrite set_other by exact N. destruct (find_field name (rrDB (rr_type r))) as [[index k]|]; [|reflexivity]. destruct (setField k v); reflexivity.
Qed.
Lemma set_refused r name v : snd (set r name v) = false -> set r name v = (r, false).
Proof using far parseIP. clear ipString.
  destruct (in_dec string_dec name header_names) as [I|N].
  - destruct (set_header r v) as (S1 & S2 & S3 & S4 & S5). cbn in I. repeat destruct I as [<-|I]; [rewrite S1|rewrite S2|rewrite S3|rewrite S4|rewrite S5|destruct I]; destruct v; intros E; try discriminate E; reflexivity.
  - rewrite set_other by exact N. destruct (find_field name (rrDB (rr_type r))) as [[index k]|]; [|reflexivity]. destruct (setField k v); [discriminate|reflexivity].
Qed.
Lemma field_name r g k v : record_ok r -> In (g, k, v) (fields r) -> ~ In (lower g) header_names /\ lower g <> ""%string.
Proof using. clear far ipString parseIP. intros OK I. destruct (locate r g k v OK I) as (_ & _ & _ & _ & _ & _ & _ & H & _). split; intros X; apply H; [right; exact X|left; congruence]. Qed.
Lemma set_iff r name v : record_ok r -> (snd (set r name v) = true <-> assignable parseIP (rr_type r) name v).
Proof using far parseIP. clear ipString.
  intros OK. destruct (set_header r v) as (S1 & S2 & S3 & S4 & S5). split.
  - destruct (in_dec string_dec name header_names) as [I|N].
    + cbn in I. repeat destruct I as [<-|I]; [rewrite S1|rewrite S2|rewrite S3|rewrite S4|rewrite S5|destruct I]; destruct v; intros E; try discriminate E; constructor.
    + rewrite set_other by exact N. destruct (find_field name (rrDB (rr_type r))) as [[index k]|] eqn:F; [|discriminate].
      destruct (setField k v) as [x|] eqn:SF; [|discriminate]. intros _. destruct (located r name index k OK F) as (g & old & <- & I).
      apply (assignable_field parseIP _ g k v); [apply (columns_fields r g k OK); eauto|]. apply setField_fits. eauto.
  - intros A. destruct A as [s|x|x|g k v I FI]; [rewrite S1; reflexivity|rewrite S3; reflexivity|rewrite S4; reflexivity|].
    apply (columns_fields r g k OK) in I. destruct I as [old I]. destruct (locate r g k old OK I) as (index & a & b & F & _). rewrite set_other by apply (field_name r g k old OK I). rewrite F.
    apply setField_fits in FI. destruct FI as [x ->]. reflexivity.
Qed.
Lemma set_assigned r name v r' : record_ok r -> set r name v = (r', true) -> assigned parseIP name v r r' /\ record_ok r'.
Proof using far parseIP. clear ipString.
  intros OK. pose proof OK as (T & M & A & B & C & D). destruct (set_header r v) as (S1 & S2 & S3 & S4 & S5).
  destruct (in_dec string_dec name header_names) as [I|N].
  - cbn in I. repeat destruct I as [<-|I]; [rewrite S1|rewrite S2|rewrite S3|rewrite S4|rewrite S5|destruct I]; try discriminate; destruct v; try discriminate; intros E; injection E as <-.
    + split; [eapply assigned_name; reflexivity|]. repeat (split; [assumption|]). assumption.
    + split; [eapply assigned_class; try reflexivity; apply uint_stores|]. repeat (split; [assumption|]). split; [apply uint_bound|]. split; assumption.
    + split; [eapply assigned_ttl; try reflexivity; apply uint_stores|]. repeat (split; [assumption|]). split; [apply uint_bound|]. assumption.
  - rewrite set_other by exact N. destruct (find_field name (rrDB (rr_type r))) as [[index k]|] eqn:F; [|discriminate].
    destruct (setField k v) as [x|] eqn:SF; [|discriminate]. intros E. injection E as <-. destruct (located r name index k OK F) as (g & old & <- & I).
    destruct (locate r g k old OK I) as (index' & a & b & F' & _ & _ & FS & _ & P). assert (index' = index) by congruence. subst index'.
    destruct (setField_takes k v x SF) as [TX TK]. destruct (P x TX) as [P1 P2].
    split; [|exact P2]. eapply assigned_field; [exact FS|exact P1|reflexivity|exact TK|reflexivity|reflexivity].
Qed.

Lemma newindex_iff r name v : record_ok r -> (snd (newindex r name v) = true <-> name = ""%string \/ assignable parseIP (rr_type r) name v).
Proof using far parseIP. clear ipString.
  intros OK. unfold LuaRR_model.newindex. destruct (String.eqb_spec name "") as [->|N]; [split; [intros _; left; reflexivity|reflexivity]|].
  rewrite set_iff by exact OK. tauto.
Qed.
Lemma newindex_assigned r name v r' : record_ok r -> newindex r name v = (r', true) -> (name = ""%string /\ r' = r \/ assigned parseIP name v r r') /\ record_ok r'.
Proof using far parseIP. clear ipString.
  intros OK. unfold LuaRR_model.newindex. destruct (String.eqb_spec name "") as [->|N].
  - intros E. injection E as <-. split; [left; split; reflexivity|exact OK].
  - intros E. destruct (set_assigned r name v r' OK E). split; [right|]; assumption.
Qed.
Lemma newindex_refused r name v r' : newindex r name v = (r', false) -> r' = r.
Proof using far parseIP. clear ipString.
  unfold LuaRR_model.newindex. destruct (String.eqb name ""); [discriminate|]. intros E. assert (F : snd (set r name v) = false) by (rewrite E; reflexivity).
  rewrite (set_refused r name v F) in E. congruence.
Qed.

(** ** Reading what was written *)
Lemma whole_back w x n : (w <= 53)%N -> whole w x -> stores w x n -> alike (LNum x) (LNum (of_uint n)).
Proof.
  intros W (z & D & R) (B & S). rewrite (S z D R). apply (alike_num _ _ z D).
  assert (P : (2 ^ w <= 2 ^ 53)%N) by (apply N.pow_le_mono_r; lia).
  pose proof (of_uint_exact (Z.to_N z)) as X. rewrite Z2N.id in X by apply R. apply X. rewrite <- (S z D R). lia.
Qed.
Lemma faithful_back k v x : faithful ipString parseIP k v -> setField k v = Some x -> exists v', getField k x = Some v' /\ alike v v'.
Proof.
  intros F E. destruct (setField_takes k v x E) as [TY TK]. destruct F as [s|y W|y W|y W|y W|l W|l W| |s ip P Q|l W]; cbn [LuaRR_model.setField] in E.
  - injection E as <-. eexists; split; [reflexivity|constructor].
  - assert (x = VU8 (uint far 64 y mod 2 ^ 8)) by congruence. subst x. eexists; split; [reflexivity|]. apply (whole_back 8); [lia|exact W|apply uint_cut; lia].
  - assert (x = VU16 (uint far 64 y mod 2 ^ 16)) by congruence. subst x. eexists; split; [reflexivity|]. apply (whole_back 16); [lia|exact W|apply uint_cut; lia].
  - assert (x = VU32 (uint far 64 y mod 2 ^ 32)) by congruence. subst x. eexists; split; [reflexivity|]. apply (whole_back 32); [lia|exact W|apply uint_cut; lia].
  - assert (x = VU64 (uint far 64 y)) by congruence. subst x. eexists; split; [reflexivity|]. destruct W as (z & D & R).
    assert (M : (2 ^ Z.of_N 53 <= 2 ^ Z.of_N 64)%Z) by (apply Z.pow_le_mono_r; lia).
    rewrite (uint_exact far 64 y z D) by lia. apply (alike_num _ _ z D). pose proof (of_uint_exact (Z.to_N z)) as X. rewrite Z2N.id in X by apply R. apply X.
    apply N2Z.inj_le. rewrite Z2N.id by apply R. rewrite N2Z.inj_pow. change (Z.of_N 2) with 2%Z. lia.
  - destruct (numbers far 16 l) as [n|] eqn:N; [|discriminate]. injection E as <-. eexists; split; [reflexivity|]. constructor.
    apply numbers_stores in N. clear TY TK. induction N as [|a b l l' (y & -> & ->) N IH]; [constructor|]. cbn [map]. constructor.
    + destruct (W _ (or_introl eq_refl)) as (y' & E' & W'). injection E' as <-. apply (whole_back 16); [lia|exact W'|apply uint_stores].
    + apply IH. intros u U. apply W. right. exact U.
  - destruct (strings l) as [n|] eqn:N; [|discriminate]. injection E as <-. eexists; split; [reflexivity|]. rewrite (strings_map _ _ N). constructor.
  - injection E as <-. eexists; split; [reflexivity|constructor].
  - rewrite P in E. injection E as <-. eexists; split; [reflexivity|]. rewrite Q. constructor.
  - destruct (options l) as [n|] eqn:N; [|discriminate]. injection E as <-. eexists; split; [reflexivity|]. rewrite (options_map _ _ N). constructor.
Qed.
Lemma precise_back r name v : record_ok r -> precise ipString parseIP (fields r) name v ->
  exists r' v', newindex r name v = (r', true) /\ get r' name = Some v' /\ alike v v'.
Proof.
  intros OK P. destruct (set_header r v) as (S1 & _ & S3 & S4 & _). destruct P as [s|x W|x W|g k old v I F].
  - eexists _, _. split; [exact S1|]. split; [reflexivity|constructor].
  - eexists _, _. split; [exact S3|]. split; [reflexivity|]. apply (whole_back 16); [lia|exact W|apply uint_stores].
  - eexists _, _. split; [exact S4|]. split; [reflexivity|]. apply (whole_back 32); [lia|exact W|apply uint_stores].
  - destruct (field_name r g k old OK I) as [N NE]. destruct (locate r g k old OK I) as (index & a & b & FF & _ & _ & _ & _ & Q).
    assert (FI : fits parseIP k v).
    { destruct F as [s|y W|y W|y W|y W|l W|l W| |s ip P0 Q0|l W]; try (constructor; fail); try (constructor; assumption).
      - constructor. intros u U. destruct (W u U) as (y & -> & _). eauto.
      - econstructor. exact P0. }
    apply setField_fits in FI. destruct FI as [x SF]. destruct (faithful_back k v x F SF) as (v' & G & AL).
    destruct (setField_takes k v x SF) as [TX TK]. destruct (Q x TX) as [Q1 Q2].
    exists (put_field r index x), v'. split; [|split; [|exact AL]].
    + unfold LuaRR_model.newindex. destruct (String.eqb_spec (lower g) ""); [contradiction|]. rewrite set_other by exact N. rewrite FF, SF. reflexivity.
    + rewrite get_other by exact N. assert (I' : In (g, k, x) (fields (put_field r index x))) by (rewrite Q1; apply in_elt).
      destruct (locate _ g k x Q2 I') as (i2 & a2 & b2 & F2 & B2 & _). cbn [put_field rr_type] in F2 |- *.
      rewrite F2. change (rr_vals (RR (rr_hdr r) (rr_type r) (setByIndex (rr_vals r) index x))) with (rr_vals (put_field r index x)). rewrite B2. exact G.
Qed.
End Props.
