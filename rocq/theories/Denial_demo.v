(** Concrete zones: checkers that establish the hypotheses of the theorems by computation, and cases outside of them. *)
From Verif Require Import Base Base_proofs Bytes Dns Name_model Name_spec Name_proofs Denial_model Denial_spec Denial_proofs Denial3_proofs.
From Coq Require Import ZifyBool ZifyNat ZifyN.
Open Scope N_scope.

Definition label_dec := list_eq_dec N.eq_dec.
Definition name_dec := list_eq_dec label_dec.
Definition name_eqb (a b : name) : bool := if name_dec a b then true else false.
Lemma name_eqb_eq a b : name_eqb a b = true <-> a = b.
Proof. unfold name_eqb. destruct (name_dec a b); split; congruence. Qed.
Definition name_okb (n : name) : bool := forallb (fun l => match l with [] => false | _ => forallb (fun b => b <? 256) l end) n.
Lemma name_okb_ok n : name_okb n = true -> name_ok n.
Proof.
  unfold name_okb. intros H. apply Forall_forall. intros l I. rewrite forallb_forall in H. specialize (H l I). destruct l as [|b l]; [discriminate H|]. split; [discriminate|].
  apply Forall_forall. intros x X. rewrite forallb_forall in H. apply N.ltb_lt, (H x X).
Qed.
Definition suffixb (a b : name) : bool := Nat.leb (length a) (length b) && name_eqb a (skipn (length b - length a) b).
Lemma suffixb_ok a b : suffixb a b = true <-> suffix a b.
Proof. unfold suffixb. rewrite andb_true_iff, Nat.leb_le, name_eqb_eq. symmetry. apply suffix_skipn. Qed.
Fixpoint nodupb (l : list name) : bool := match l with [] => true | x :: l' => negb (existsb (name_eqb x) l') && nodupb l' end.
Lemma in_existsb x l : existsb (name_eqb x) l = true <-> In x l.
Proof. rewrite existsb_exists. split; [intros (y & I & E); apply name_eqb_eq in E; subst; exact I|intros I; exists x; split; [exact I|apply name_eqb_eq; reflexivity]]. Qed.
Lemma nodupb_ok l : nodupb l = true -> NoDup l.
Proof.
  induction l as [|x l IH]; intros H; [constructor|]. cbn [nodupb] in H. apply andb_prop in H. destruct H as [H1 H2]. constructor; [|apply IH, H2].
  intros I. apply in_existsb in I. rewrite I in H1. discriminate H1.
Qed.
Definition zone_okb (z : zone) : bool :=
  nodupb (map fst (z_data z)) && existsb (name_eqb (z_apex z)) (map fst (z_data z)) &&
  forallb (fun p => name_okb (fst p) && name_eqb (lname (fst p)) (fst p) && suffixb (z_apex z) (fst p)) (z_data z).
Lemma zone_okb_ok z : zone_okb z = true -> zone_ok z.
Proof.
  unfold zone_okb. intros H. apply andb_prop in H. destruct H as [H H3]. apply andb_prop in H. destruct H as [H1 H2]. split; [apply nodupb_ok, H1|]. split; [apply in_existsb, H2|].
  apply Forall_forall. intros p I. rewrite forallb_forall in H3. specialize (H3 p I). apply andb_prop in H3. destruct H3 as [H3 H5]. apply andb_prop in H3. destruct H3 as [H3 H4].
  split; [apply name_okb_ok, H3|]. split; [apply name_eqb_eq, H4|apply suffixb_ok, H5].
Qed.
Definition ltb (a b : name) : bool := is_lt (labels_compare (rev (lname a)) (rev (lname b))).
Lemma ltb_ok a b : ltb a b = true <-> name_lt a b.
Proof. unfold ltb. rewrite is_lt_iff. apply labels_compare_lt. Qed.
(** The NSEC record from o to nx *)
Definition mk_nsec (o nx : name) (ts : list N) : nsec := Nsec (show o) (show nx) ts.
Definition nsec_okb (z : zone) (o nx : name) (ts : list N) : bool :=
  existsb (fun p => name_eqb (fst p) o && (if list_eq_dec N.eq_dec (snd p) ts then true else false)) (z_data z) && existsb (name_eqb nx) (map fst (z_data z)) &&
  (if ltb o nx then forallb (fun x => negb (ltb o x && ltb x nx)) (map fst (z_data z))
   else name_eqb nx (z_apex z) && forallb (fun x => negb (ltb o x)) (map fst (z_data z))).
Lemma nsec_okb_ok z o nx ts : zone_ok z -> nsec_okb z o nx ts = true -> authentic z (mk_nsec o nx ts).
Proof.
  intros Z H. unfold nsec_okb in H. apply andb_prop in H. destruct H as [H H3]. apply andb_prop in H. destruct H as [H1 H2].
  apply existsb_exists in H1. destruct H1 as ([o2 ts2] & I & E). apply andb_prop in E. destruct E as [E1 E2]. cbn [fst snd] in *. apply name_eqb_eq in E1. subst o2.
  destruct (list_eq_dec N.eq_dec ts2 ts) as [->|]; [|discriminate E2]. apply in_existsb in H2. destruct (owner_ok z Z o (data_owner z o ts I)) as (Ook & Ol & _). destruct (owner_ok z Z nx H2) as (Nok & Nl & _).
  exists o, nx, ts, o, nx. repeat (split; [first [assumption|reflexivity]|]).
  destruct (ltb o nx) eqn:L.
  - left. split; [apply ltb_ok, L|]. intros x X [A B]. rewrite forallb_forall in H3. specialize (H3 x X). apply ltb_ok in A, B. rewrite A, B in H3. discriminate H3.
  - right. apply andb_prop in H3. destruct H3 as [H3 H4]. split; [apply name_eqb_eq, H3|]. intros x X A. rewrite forallb_forall in H4. specialize (H4 x X). apply ltb_ok in A. rewrite A in H4. discriminate H4.
Qed.
Definition hasb (z : zone) (n : name) (t : N) : bool := existsb (fun p => name_eqb (fst p) n && existsb (N.eqb t) (snd p)) (z_data z).
Lemma hasb_ok z n t : hasb z n t = true <-> has z n t.
Proof.
  unfold hasb. rewrite existsb_exists. split.
  - intros ([o ts] & I & E). apply andb_prop in E. destruct E as [E1 E2]. cbn [fst snd] in *. apply name_eqb_eq in E1. subst o. apply existsb_exists in E2. destruct E2 as (x & X & E2). apply N.eqb_eq in E2. subst x. exists ts. auto.
  - intros (ts & I & X). exists (n, ts). split; [exact I|]. cbn [fst snd]. apply andb_true_iff. split; [apply name_eqb_eq; reflexivity|]. apply existsb_exists. exists t. split; [exact X|apply N.eqb_refl].
Qed.

(** A zone with a delegation, a name that only exists because of a name below it, and a wildcard. *)
Definition nm (s : string) : name := labels_from [] s.
Definition ex_zone : zone := Zone (nm "ex.")
  [ (nm "ex.", [2; 6; 48]); (nm "a.ex.", [1; 46]); (nm "h.b.ex.", [1]); (nm "c.ex.", [2; 43]); (nm "w.ex.", [16]); (nm "*.w.ex.", [16]) ]%string.
Definition ex_nsecs : list nsec :=
  [ mk_nsec (nm "ex.") (nm "a.ex.") [2; 6; 48]; mk_nsec (nm "a.ex.") (nm "h.b.ex.") [1; 46]; mk_nsec (nm "h.b.ex.") (nm "c.ex.") [1];
    mk_nsec (nm "c.ex.") (nm "w.ex.") [2; 43]; mk_nsec (nm "w.ex.") (nm "*.w.ex.") [16]; mk_nsec (nm "*.w.ex.") (nm "ex.") [16] ]%string.
Lemma ex_zone_ok : zone_ok ex_zone.
Proof. apply zone_okb_ok. vm_compute. reflexivity. Qed.
Lemma ex_nsecs_authentic : Forall (authentic ex_zone) ex_nsecs.
Proof. repeat (apply Forall_cons || apply Forall_nil); apply (nsec_okb_ok ex_zone _ _ _ ex_zone_ok); vm_compute; reflexivity. Qed.
(** The child zone *)
Definition ex_child : zone := Zone (nm "c.ex.") [ (nm "c.ex.", [1; 2; 6]); (nm "www.c.ex.", [1]) ]%string.
Lemma ex_child_ok : zone_ok ex_child.
Proof. apply zone_okb_ok. vm_compute. reflexivity. Qed.

Lemma delegation_refuted : exists parent child rs q, zone_ok parent /\ zone_ok child /\ Forall (authentic parent) rs /\
  has parent (z_apex child) 43 /\ suffix (z_apex child) q /\ has child q 1 /\ nsecProvesNXDOMAIN rs (show q) = true.
Proof.
  exists ex_zone, ex_child, ex_nsecs, (nm "www.c.ex."). split; [exact ex_zone_ok|]. split; [exact ex_child_ok|]. split; [exact ex_nsecs_authentic|].
  split; [apply hasb_ok; vm_compute; reflexivity|]. split; [apply suffixb_ok; vm_compute; reflexivity|]. split; [apply hasb_ok; vm_compute; reflexivity|vm_compute; reflexivity].
Qed.
Lemma cut_nodata_refuted : exists parent child rs, zone_ok parent /\ zone_ok child /\ Forall (authentic parent) rs /\
  has parent (z_apex child) 43 /\ has child (z_apex child) 1 /\ nsecProvesNODATA rs (show (z_apex child)) 1 = true.
Proof.
  exists ex_zone, ex_child, ex_nsecs. split; [exact ex_zone_ok|]. split; [exact ex_child_ok|]. split; [exact ex_nsecs_authentic|].
  split; [apply hasb_ok; vm_compute; reflexivity|]. split; [apply hasb_ok; vm_compute; reflexivity|vm_compute; reflexivity].
Qed.
Lemma ent_refuted : exists z rs q, zone_ok z /\ Forall (authentic z) rs /\ is_node z q /\ nsecProvesNXDOMAIN rs (show q) = true.
Proof.
  exists ex_zone, ex_nsecs, (nm "b.ex."). split; [exact ex_zone_ok|]. split; [exact ex_nsecs_authentic|]. split; [|vm_compute; reflexivity].
  split; [apply suffixb_ok; vm_compute; reflexivity|]. exists (nm "h.b.ex."). split; [apply in_existsb; vm_compute; reflexivity|apply suffixb_ok; vm_compute; reflexivity].
Qed.
Definition root_zone : zone := Zone [] [ ([], [2; 6]); (nm "*.", [16]); (nm "com.", [2]) ]%string.
Definition root_nsecs : list nsec := [ mk_nsec (nm "com.") [] [2]; mk_nsec [] (nm "*.") [2; 6] ]%string.
Lemma root_zone_ok : zone_ok root_zone.
Proof. apply zone_okb_ok. vm_compute. reflexivity. Qed.
Lemma root_wildcard_refuted : exists z rs q e, zone_ok z /\ Forall (authentic z) rs /\ closest z q e /\ has z (star e) 16 /\ nsecProvesNXDOMAIN rs (show q) = true.
Proof.
  exists root_zone, root_nsecs, (nm "foo."), []. split; [exact root_zone_ok|]. split.
  { repeat (apply Forall_cons || apply Forall_nil); apply (nsec_okb_ok root_zone _ _ _ root_zone_ok); vm_compute; reflexivity. }
  split; [|split; [apply hasb_ok; vm_compute; reflexivity|vm_compute; reflexivity]]. split.
  - split; [exists []; reflexivity|]. exists []. split; [left; reflexivity|exists []; reflexivity].
  - split; [exists (nm "foo."); reflexivity|]. intros e' (_ & o & O & S) S'. destruct e' as [|l e']; [lia|]. exfalso.
    assert (E : l :: e' = nm "foo.").
    { destruct S' as (p & P). destruct p as [|x p]; [symmetry; exact P|]. injection P as _ P. destruct p; discriminate P. }
    rewrite E in S. apply suffixb_ok in S. unfold is_owner in O. cbn in O. destruct O as [<-|[<-|[<-|[]]]]; vm_compute in S; discriminate S.
Qed.

(** ** NSEC3 *)
(** An injective function in place of the hash: every byte as two letters *)
Definition nib (n : N) : ascii := ascii_of_N (65 + n).
Fixpoint hexs (s : string) : string :=
  match s with EmptyString => EmptyString | String c s' => String (nib (N_of_ascii c / 16)) (String (nib (N_of_ascii c mod 16)) (hexs s')) end.
Definition toy (s : string) (_ _ : N) (_ : string) : string := hexs s.
Lemma N_of_ascii_lt c : N_of_ascii c < 256.
Proof. destruct c as [[] [] [] [] [] [] [] []]; vm_compute; reflexivity. Qed.
Lemma nib_ok a : a < 16 -> show_byte (N_of_ascii (nib a)) = String (nib a) EmptyString /\ N_of_ascii (nib a) = 65 + a.
Proof.
  intros H. assert (X : (fun a => (show_byte (N_of_ascii (nib a)) =? String (nib a) EmptyString)%string && (N_of_ascii (nib a) =? 65 + a) || (16 <=? a)) a = true).
  { revert a H. assert (Y : forall b, b < 256 -> (fun a => (show_byte (N_of_ascii (nib a)) =? String (nib a) EmptyString)%string && (N_of_ascii (nib a) =? 65 + a) || (16 <=? a)) b = true) by (apply all_bytes; vm_compute; reflexivity).
    intros a H. apply Y. lia. }
  apply orb_prop in X. destruct X as [X|X]; [|lia]. apply andb_prop in X. destruct X as [X1 X2]. split; [apply String.eqb_eq, X1|apply N.eqb_eq, X2].
Qed.
Lemma hexs_inj a : forall b, hexs a = hexs b -> a = b.
Proof.
  induction a as [|c a IH]; intros [|d b] H; try discriminate H; [reflexivity|]. cbn [hexs] in H. pose proof (N_of_ascii_lt c) as C. pose proof (N_of_ascii_lt d) as D.
  assert (E1 : nib (N_of_ascii c / 16) = nib (N_of_ascii d / 16)) by congruence. assert (E2 : nib (N_of_ascii c mod 16) = nib (N_of_ascii d mod 16)) by congruence. assert (E3 : hexs a = hexs b) by congruence.
  apply (f_equal N_of_ascii) in E1, E2. rewrite !(fun x H => proj2 (nib_ok x H)) in E1, E2 by (try apply N.mod_lt; try apply N.div_lt_upper_bound; lia).
  rewrite (IH b E3). f_equal. rewrite <- (ascii_N_embedding c), <- (ascii_N_embedding d). f_equal.
  rewrite (N.div_mod (N_of_ascii c) 16), (N.div_mod (N_of_ascii d) 16) by lia. lia.
Qed.
Lemma hexs_plain s : show_label (bytes_of_string (hexs s)) = hexs s.
Proof.
  induction s as [|c s IH]; [reflexivity|]. cbn [hexs]. pose proof (N_of_ascii_lt c) as C. unfold bytes_of_string in *. cbn [list_ascii_of_string map show_label].
  rewrite !(fun x H => proj1 (nib_ok x H)) by (try apply N.mod_lt; try apply N.div_lt_upper_bound; lia). rewrite IH. reflexivity.
Qed.
Lemma toy_ok c : hash_ok toy c.
Proof.
  split; [|intros a; apply hexs_plain]. intros a b A B _ _ H. apply hexs_inj in H. apply show_inj; assumption.
Qed.

Definition betweenb (a x b : string) : bool :=
  if str_lt a b then str_lt a x && str_lt x b else if String.eqb a b then negb (String.eqb x a) else str_lt a x || str_lt x b.
Lemma betweenb_ok a x b : betweenb a x b = false -> ~ between a x b.
Proof.
  unfold betweenb, between. destruct (str_lt a b); [|destruct (String.eqb a b)]; intros H G.
  - destruct G as [G1 G2]. rewrite G1, G2 in H. discriminate H.
  - apply negb_false_iff, String.eqb_eq in H. contradiction.
  - apply orb_false_iff in H. destruct H as [H1 H2]. destruct G; congruence.
Qed.
(** All names from the apex down to the owners *)
Fixpoint tails (n : name) : list name := match n with [] => [[]] | _ :: n' => n :: tails n' end.
Lemma tails_suffix a b : suffix a b -> In a (tails b).
Proof. intros (p & ->). induction p as [|x p IH]; [destruct a; left; reflexivity|]. right. exact IH. Qed.
Lemma suffix_tails a b : In a (tails b) -> suffix a b.
Proof. induction b as [|x b IH]; cbn [tails]; intros [<-|H]; try contradiction; [exists []; reflexivity|exists []; reflexivity|]. destruct (IH H) as (p & ->). exists (x :: p). reflexivity. Qed.
Definition nodes (z : zone) : list name := filter (suffixb (z_apex z)) (flat_map (fun p => tails (fst p)) (z_data z)).
Lemma nodes_ok z n : is_node z n <-> In n (nodes z).
Proof.
  unfold nodes. rewrite filter_In, in_flat_map, suffixb_ok. unfold is_node, is_owner. split.
  - intros (A & o & O & S). apply in_map_iff in O. destruct O as (p & <- & O). split; [|exact A]. exists p. split; [exact O|apply tails_suffix, S].
  - intros ((p & I & S) & A). split; [exact A|]. exists (fst p). split; [apply in_map, I|apply suffix_tails, S].
Qed.
Definition types_at (z : zone) (n : name) : list N := match find (fun p => name_eqb (fst p) n) (z_data z) with Some p => snd p | None => [] end.
Lemma types_at_ok z n t : zone_ok z -> In t (types_at z n) <-> has z n t.
Proof.
  intros Z. unfold types_at. destruct (find _ (z_data z)) as [[o ts]|] eqn:E.
  - apply find_some in E. destruct E as [I E]. cbn [fst snd] in *. apply name_eqb_eq in E. subst o. split; [intros T; exists ts; auto|]. intros (ts2 & D & T). rewrite (data_fun z Z n ts2 ts D I) in T. exact T.
  - split; [contradiction|]. intros (ts & D & _). pose proof (find_none _ _ E (n, ts) D) as X. cbn [fst] in X. assert (Y : name_eqb n n = true) by (apply name_eqb_eq; reflexivity). congruence.
Qed.
Definition mk_nsec3 (z : zone) (c : chain3) (flags : N) (n nx : name) : nsec3 :=
  Nsec3 (show (bytes_of_string (hash toy c n) :: z_apex z)) (c_alg c) flags (c_iter c) (c_salt c) (hash toy c nx) (types_at z n).
Definition nsec3_okb (z : zone) (c : chain3) (flags : N) (n nx : name) : bool :=
  existsb (name_eqb n) (c_names c) && existsb (name_eqb nx) (c_names c) && name_okb (bytes_of_string (hash toy c n) :: z_apex z) &&
  (if label_dec (map uc (bytes_of_string (hash toy c n))) (bytes_of_string (hash toy c n)) then true else false) &&
  forallb (fun m => negb (betweenb (hash toy c n) (hash toy c m) (hash toy c nx))) (c_names c) &&
  (N.testbit flags 0 || forallb (fun m => negb (betweenb (hash toy c n) (hash toy c m) (hash toy c nx))) (nodes z)).
Lemma nsec3_okb_ok z c flags n nx : zone_ok z -> nsec3_okb z c flags n nx = true -> authentic3 toy z c (mk_nsec3 z c flags n nx).
Proof.
  intros Z H. unfold nsec3_okb in H. apply andb_prop in H. destruct H as [H H6]. apply andb_prop in H. destruct H as [H H5]. apply andb_prop in H. destruct H as [H H4]. apply andb_prop in H. destruct H as [H H3]. apply andb_prop in H. destruct H as [H1 H2].
  apply in_existsb in H1, H2. apply name_okb_ok in H3. destruct (label_dec _ _) as [E|]; [|discriminate H4]. destruct (owner_ok z Z _ (apex_owner z Z)) as (_ & Al & _).
  exists n, nx, (bytes_of_string (hash toy c n)), (z_apex z). repeat (split; [first [assumption|reflexivity]|]). split; [intros t; apply types_at_ok, Z|]. split.
  - intros m I. rewrite forallb_forall in H5. specialize (H5 m I). apply betweenb_ok. apply negb_true_iff, H5.
  - cbn [h_flags mk_nsec3]. intros O m M. rewrite O in H6. cbn [orb] in H6. apply nodes_ok in M. rewrite forallb_forall in H6. specialize (H6 m M). apply betweenb_ok. apply negb_true_iff, H6.
Qed.
Definition chain_okb (z : zone) (c : chain3) : bool :=
  forallb (fun n => existsb (name_eqb n) (nodes z)) (c_names c) && existsb (name_eqb (z_apex z)) (c_names c) &&
  forallb (fun m => existsb (name_eqb m) (c_names c) || forallb (fun p => negb (suffixb m (fst p)) || forallb (N.eqb 2) (snd p)) (z_data z)) (nodes z).
Lemma chain_okb_ok z c : chain_okb z c = true -> chain_ok z c.
Proof.
  intros H. unfold chain_okb in H. apply andb_prop in H. destruct H as [H H3]. apply andb_prop in H. destruct H as [H1 H2]. split; [|split].
  - intros n I. rewrite forallb_forall in H1. apply nodes_ok. apply in_existsb. apply (H1 n I).
  - apply in_existsb, H2.
  - intros m o ts M NI D S t T. apply nodes_ok in M. rewrite forallb_forall in H3. specialize (H3 m M). apply orb_prop in H3. destruct H3 as [H3|H3]; [apply in_existsb in H3; contradiction|].
    rewrite forallb_forall in H3. specialize (H3 (o, ts) D). cbn [fst snd] in H3. apply orb_prop in H3. destruct H3 as [H3|H3]; [apply suffixb_ok in S; rewrite S in H3; discriminate H3|].
    rewrite forallb_forall in H3. symmetry. apply N.eqb_eq, (H3 t T).
Qed.

(** The example zone with NSEC3: the names in the order of the hashes *)
Definition ex_chain : chain3 := Chain3 1 0 ""%string [ nm "*.w.ex."; nm "a.ex."; nm "b.ex."; nm "c.ex."; nm "ex."; nm "h.b.ex."; nm "w.ex." ]%string.
Fixpoint ring (l : list name) (first : name) : list (name * name) := match l with [] => [] | [x] => [(x, first)] | x :: (y :: _) as l' => (x, y) :: ring l' first end.
Definition chain_recs (z : zone) (c : chain3) (flags : N) : list nsec3 := map (fun p => mk_nsec3 z c flags (fst p) (snd p)) (ring (c_names c) (hd [] (c_names c))).
Definition chain_recs_okb (z : zone) (c : chain3) (flags : N) : bool := forallb (fun p => nsec3_okb z c flags (fst p) (snd p)) (ring (c_names c) (hd [] (c_names c))).
Lemma chain_recs_ok z c flags : zone_ok z -> chain_recs_okb z c flags = true -> Forall (authentic3 toy z c) (chain_recs z c flags).
Proof.
  intros Z H. apply Forall_forall. intros r I. unfold chain_recs in I. apply in_map_iff in I. destruct I as (p & <- & I). apply nsec3_okb_ok; [exact Z|]. unfold chain_recs_okb in H. rewrite forallb_forall in H. apply (H p I).
Qed.
Definition ex_nsec3s : list nsec3 := chain_recs ex_zone ex_chain 0.
Lemma ex_chain_ok : chain_ok ex_zone ex_chain.
Proof. apply chain_okb_ok. vm_compute. reflexivity. Qed.
Lemma ex_nsec3s_authentic : Forall (authentic3 toy ex_zone ex_chain) ex_nsec3s.
Proof. apply chain_recs_ok; [exact ex_zone_ok|vm_compute; reflexivity]. Qed.
(** Only the records with the given indices *)
Definition pick {A} (l : list A) (is : list nat) : list A := flat_map (fun i => match nth_error l i with Some x => [x] | None => [] end) is.
Lemma pick_forall {A} (P : A -> Prop) l is : Forall P l -> Forall P (pick l is).
Proof.
  intros F. apply Forall_forall. intros x I. unfold pick in I. apply in_flat_map in I. destruct I as (i & _ & I). destruct (nth_error l i) as [y|] eqn:E; [|contradiction]. destruct I as [<-|[]].
  rewrite Forall_forall in F. apply F. apply (nth_error_In l i E).
Qed.

Lemma ex_hypotheses : forall r, In r (pick ex_nsec3s [4; 6]%nat) -> N.testbit (h_flags r) 0 = false /\ nsec3_match toy r (show (nm "zz.ex.")) = false /\
  forall e, name_ok e -> lname e = e -> nsec3_match toy r (show (star e)) = false.
Proof.
  intros r I. pose proof (pick_forall _ _ [4; 6]%nat ex_nsec3s_authentic) as F. rewrite Forall_forall in F.
  assert (X : forallb (fun r => negb (N.testbit (h_flags r) 0) && negb (nsec3_match toy r (show (nm "zz.ex."))) && negb (nsec3_match toy r (show (star (nm "w.ex."))))) (pick ex_nsec3s [4; 6]%nat) = true) by (vm_compute; reflexivity).
  rewrite forallb_forall in X. specialize (X r I). apply andb_prop in X. destruct X as [X X3]. apply andb_prop in X. destruct X as [X1 X2]. apply negb_true_iff in X1, X2, X3. split; [exact X1|]. split; [exact X2|].
  intros e E L. apply not_true_iff_false. intros M. destruct (match_sound toy ex_zone ex_chain ex_zone_ok ex_chain_ok (toy_ok ex_chain) r (star e) (F r I) (star_ok e E) (star_lname e L) M) as (_ & nx & (J & _)).
  assert (e = nm "w.ex.") as ->; [|congruence]. unfold star in J. cbn in J. repeat (destruct J as [J|J]; [first [discriminate J|injection J as <-; reflexivity]|]). destruct J.
Qed.
Lemma delegation3_refuted : exists hashName parent chain child rs q, zone_ok parent /\ zone_ok child /\ chain_ok parent chain /\ hash_ok hashName chain /\
  Forall (authentic3 hashName parent chain) rs /\ (forall r, In r rs -> N.testbit (h_flags r) 0 = false) /\
  has parent (z_apex child) 43 /\ suffix (z_apex child) q /\ has child q 1 /\ nsec3ProvesNXDOMAIN hashName rs (show q) = true.
Proof.
  exists toy, ex_zone, ex_chain, ex_child, ex_nsec3s, (nm "www.c.ex."). split; [exact ex_zone_ok|]. split; [exact ex_child_ok|]. split; [exact ex_chain_ok|]. split; [apply toy_ok|].
  split; [exact ex_nsec3s_authentic|]. split; [intros r I; unfold ex_nsec3s, chain_recs in I; apply in_map_iff in I; destruct I as (p & <- & _); reflexivity|].
  split; [apply hasb_ok; vm_compute; reflexivity|]. split; [apply suffixb_ok; vm_compute; reflexivity|]. split; [apply hasb_ok; vm_compute; reflexivity|vm_compute; reflexivity].
Qed.
Lemma cover_own_refuted : exists hashName z chain rs q, zone_ok z /\ chain_ok z chain /\ hash_ok hashName chain /\
  Forall (authentic3 hashName z chain) rs /\ (forall r, In r rs -> N.testbit (h_flags r) 0 = false) /\ has z q 1 /\ nsec3ProvesNXDOMAIN hashName rs (show q) = true.
Proof.
  exists toy, ex_zone, ex_chain, ex_nsec3s, (nm "a.ex."). split; [exact ex_zone_ok|]. split; [exact ex_chain_ok|]. split; [apply toy_ok|].
  split; [exact ex_nsec3s_authentic|]. split; [intros r I; unfold ex_nsec3s, chain_recs in I; apply in_map_iff in I; destruct I as (p & <- & _); reflexivity|].
  split; [apply hasb_ok; vm_compute; reflexivity|vm_compute; reflexivity].
Qed.
Lemma cover_wildcard_refuted : exists hashName z chain rs q e, zone_ok z /\ chain_ok z chain /\ hash_ok hashName chain /\
  Forall (authentic3 hashName z chain) rs /\ (forall r, In r rs -> N.testbit (h_flags r) 0 = false) /\ suffix e q /\ is_node z e /\ has z (star e) 16 /\ nsec3ProvesNXDOMAIN hashName rs (show q) = true.
Proof.
  exists toy, ex_zone, ex_chain, ex_nsec3s, (nm "q.w.ex."), (nm "w.ex."). split; [exact ex_zone_ok|]. split; [exact ex_chain_ok|]. split; [apply toy_ok|].
  split; [exact ex_nsec3s_authentic|]. split; [intros r I; unfold ex_nsec3s, chain_recs in I; apply in_map_iff in I; destruct I as (p & <- & _); reflexivity|].
  split; [apply suffixb_ok; vm_compute; reflexivity|]. split; [apply nodes_ok, in_existsb; vm_compute; reflexivity|]. split; [apply hasb_ok; vm_compute; reflexivity|vm_compute; reflexivity].
Qed.
(** With opt-out: the unsigned delegation u.ex has no record of its own. *)
Definition oo_zone : zone := Zone (nm "ex.") [ (nm "ex.", [2; 6; 48]); (nm "a.ex.", [1]); (nm "u.ex.", [2]); (nm "*.ex.", [16]) ]%string.
Definition oo_chain : chain3 := Chain3 1 0 ""%string [ nm "*.ex."; nm "a.ex."; nm "ex." ]%string.
(** The records of the apex and of a.ex *)
Definition oo_nsec3s : list nsec3 := pick (chain_recs oo_zone oo_chain 1) [1; 2]%nat.
Lemma oo_zone_ok : zone_ok oo_zone.
Proof. apply zone_okb_ok. vm_compute. reflexivity. Qed.
Lemma oo_chain_ok : chain_ok oo_zone oo_chain.
Proof. apply chain_okb_ok. vm_compute. reflexivity. Qed.
Lemma oo_nsec3s_authentic : Forall (authentic3 toy oo_zone oo_chain) oo_nsec3s.
Proof. apply pick_forall, chain_recs_ok; [exact oo_zone_ok|vm_compute; reflexivity]. Qed.
Lemma optout_wildcard_refuted : exists hashName z chain rs q e, zone_ok z /\ chain_ok z chain /\ hash_ok hashName chain /\
  Forall (authentic3 hashName z chain) rs /\ (forall r, In r rs -> nsec3_match hashName r (show (star e)) = false) /\
  closest z q e /\ has z (star e) 16 /\ nsec3ProvesNXDOMAIN hashName rs (show q) = true.
Proof.
  exists toy, oo_zone, oo_chain, oo_nsec3s, (nm "q.ex."), (nm "ex."). split; [exact oo_zone_ok|]. split; [exact oo_chain_ok|]. split; [apply toy_ok|]. split; [exact oo_nsec3s_authentic|].
  split. { intros r I. assert (X : forallb (fun r => negb (nsec3_match toy r (show (star (nm "ex."))))) oo_nsec3s = true) by (vm_compute; reflexivity). rewrite forallb_forall in X. apply negb_true_iff, (X r I). }
  split; [|split; [apply hasb_ok; vm_compute; reflexivity|vm_compute; reflexivity]]. split; [apply nodes_ok, in_existsb; vm_compute; reflexivity|]. split; [apply suffixb_ok; vm_compute; reflexivity|].
  intros e' N S. apply nodes_ok in N. apply suffixb_ok in S. vm_compute in N. repeat (destruct N as [<-|N]; [vm_compute in S; try discriminate S; vm_compute; lia|]). destruct N.
Qed.
