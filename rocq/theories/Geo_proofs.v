From Verif Require Import Base Base_proofs Bytes Net Cidr_model Cidr_spec Cidr_proofs3 Redis_model Geo_model Geo_spec.
Local Open Scope N_scope.

Lemma decimal_from_mono s : forall acc v, decimal_from acc s = Some v -> acc <= v.
Proof. exact (decimal_from_ge s). Qed.

Lemma digit_decimal c : digit c = (let n := N_of_ascii c in if (48 <=? n) && (n <=? 57) then Some (n - 48) else None).
Proof. reflexivity. Qed.

Lemma parse_u64_iff s : forall acc v, acc < 2^64 -> (parse_u64 acc s = Some v <-> decimal_from acc s = Some v /\ v < 2^64).
Proof.
  induction s as [|c s IH]; intros acc v A; cbn [parse_u64 decimal_from].
  - split; [intros E; injection E as <-; auto|intros (E & _); exact E].
  - rewrite digit_decimal. cbv zeta. destruct ((48 <=? N_of_ascii c) && (N_of_ascii c <=? 57)) eqn:D.
    + destruct (acc * 10 + (N_of_ascii c - 48) <? 2^64) eqn:B.
      * apply N.ltb_lt in B. apply IH; exact B.
      * apply N.ltb_ge in B. split; [discriminate|]. intros (E & L). apply decimal_from_mono in E. lia.
    + split; [discriminate|intros (E & _); discriminate].
Qed.

Lemma parse_iff s v : parseUint64 s = Some v <-> decimal s v /\ v < 2^64.
Proof.
  unfold parseUint64, decimal. destruct s as [|c s].
  - split; [discriminate|intros ((E & _) & _); congruence].
  - rewrite parse_u64_iff by (vm_compute; reflexivity). split; [intros (A & B); repeat split; auto; discriminate|intros ((_ & A) & B); auto].
Qed.

Lemma hash_prefix r : has_prefix "#" r = true <-> exists s, r = ("#" ++ s)%string.
Proof.
  unfold has_prefix. destruct r as [|c r].
  - split; [discriminate|intros (s & E); discriminate].
  - change (String.prefix "#" (String c r)) with (if ascii_dec "#" c then String.prefix EmptyString r else false). destruct (ascii_dec "#" c) as [<-|N].
    + split; [intros _; exists r; reflexivity|destruct r; reflexivity].
    + split; [intros X; discriminate X|intros (s & E); injection E as -> _; congruence].
Qed.

Lemma blank_iff line : has_prefix "#" (trim_space line) || String.eqb (trim_space line) EmptyString = true <-> blank line.
Proof.
  unfold blank. rewrite orb_true_iff, hash_prefix, String.eqb_eq. tauto.
Qed.

Lemma before_hash_spec s : contains "#" (before_hash s) = false /\ (s = before_hash s \/ exists comment, s = (before_hash s ++ String "#" comment)%string).
Proof.
  unfold before_hash. pose proof (split_no_sep "#" s) as F. pose proof (join_split "#" s) as J. destruct (split "#" s) as [|x [|y l]] eqn:E.
  - destruct (split_not_nil _ _ E).
  - split; [exact (Forall_inv F)|]. left. symmetry. exact J.
  - split; [exact (Forall_inv F)|]. right. exists (join "#" (y :: l)). rewrite <- J. reflexivity.
Qed.

Lemma app_sep_inj (a : ascii) t1 : forall t2 c1 c2, contains a t1 = false -> contains a t2 = false -> (t1 ++ String a c1 = t2 ++ String a c2)%string -> t1 = t2.
Proof.
  induction t1 as [|x t1 IH]; intros [|y t2] c1 c2 H1 H2 E; cbn in *; auto.
  - injection E as <- _. rewrite Ascii.eqb_refl in H2. discriminate.
  - injection E as -> _. rewrite Ascii.eqb_refl in H1. discriminate.
  - injection E as -> E. apply orb_false_iff in H1, H2. f_equal. eapply IH; eauto; tauto.
Qed.
Lemma contains_app_sep a t c : contains a (t ++ String a c)%string = true.
Proof. induction t as [|x t IH]; cbn; [rewrite Ascii.eqb_refl; reflexivity|rewrite IH, orb_true_r; reflexivity]. Qed.

Lemma before_hash_unique s text : contains "#" text = false -> (s = text \/ exists comment, s = (text ++ String "#" comment)%string) -> before_hash s = text.
Proof.
  intros N [->|(c & ->)].
  - unfold before_hash. rewrite split_single by exact N. reflexivity.
  - destruct (before_hash_spec (text ++ String "#" c)%string) as (H & [E|(c' & E)]).
    + rewrite <- E in H. rewrite contains_app_sep in H. discriminate.
    + symmetry. eapply app_sep_inj; [exact N|exact H|exact E].
Qed.

Lemma numbered_iff line v : numbered line v <-> ~ blank line /\ decimal (trim_space (before_hash (trim_space line))) v.
Proof.
  split.
  - intros (B & text & N & H & D). split; [exact B|]. rewrite (before_hash_unique _ text N H). exact D.
  - intros (B & D). split; [exact B|]. destruct (before_hash_spec (trim_space line)) as (N & H). eauto.
Qed.
Lemma decimal_fun s v w : decimal s v -> decimal s w -> v = w.
Proof. intros (_ & A) (_ & B). congruence. Qed.
Lemma numbered_fun line v w : numbered line v -> numbered line w -> v = w.
Proof. rewrite !numbered_iff. intros (_ & A) (_ & B). eapply decimal_fun; eauto. Qed.

Lemma load_ok rules : forall db0, (exists db, load_ids rules db0 = Some db) <-> Forall loadable rules.
Proof.
  induction rules as [|r rules IH]; intros db0; cbn [load_ids].
  - split; [constructor|eauto].
  - cbv zeta. destruct (has_prefix "#" (trim_space r) || String.eqb (trim_space r) EmptyString) eqn:B.
    + apply blank_iff in B. rewrite IH. split; [intros F; constructor; [left; exact B|exact F]|intros F; inversion F; assumption].
    + assert (NB : ~ blank r) by (rewrite <- blank_iff; congruence).
      destruct (parseUint64 (trim_space (before_hash (trim_space r)))) as [v|] eqn:P.
      * apply parse_iff in P. destruct P as (P & L). rewrite IH. split; [|intros F; inversion F; assumption].
        intros F. constructor; [|exact F]. right. exists v. rewrite numbered_iff. auto.
      * split; [intros (db & E); discriminate|]. intros F. inversion F as [|? ? [H|(v & H & L)] _]; subst; [contradiction|].
        apply numbered_iff in H. destruct H as (_ & H). assert (X : parseUint64 (trim_space (before_hash (trim_space r))) = Some v) by (apply parse_iff; auto). congruence.
Qed.
Lemma load_in rules : forall db0 db v, load_ids rules db0 = Some db -> (In v db <-> In v db0 \/ named rules v).
Proof.
  induction rules as [|r rules IH]; intros db0 db v; cbn [load_ids].
  - intros E. injection E as <-. split; [auto|]. intros [H|(l & [] & _)]; exact H.
  - cbv zeta. destruct (has_prefix "#" (trim_space r) || String.eqb (trim_space r) EmptyString) eqn:B.
    + apply blank_iff in B. intros E. rewrite (IH _ _ _ E). split; (intros [H|(l & I & H)]; [left; exact H|]).
      * right. exists l. split; [right; exact I|exact H].
      * destruct I as [<-|I]; [destruct H as (H & _); contradiction|]. right. exists l. auto.
    + assert (NB : ~ blank r) by (rewrite <- blank_iff; congruence).
      destruct (parseUint64 (trim_space (before_hash (trim_space r)))) as [w|] eqn:P; [|discriminate].
      apply parse_iff in P. destruct P as (P & L). assert (W : numbered r w) by (rewrite numbered_iff; auto).
      intros E. rewrite (IH _ _ _ E). cbn [In]. split.
      * intros [[->|H]|(l & I & H)]; [right; exists r; split; [left; reflexivity|exact W]|left; exact H|right; exists l; split; [right; exact I|exact H]].
      * intros [H|(l & [<-|I] & H)]; [left; right; exact H|left; left; eapply numbered_fun; eauto|right; exists l; auto].
Qed.
Lemma new_ok rules : (exists db, newIDs rules = Some db) <-> Forall loadable rules.
Proof. apply load_ok. Qed.
Lemma new_in rules db v : newIDs rules = Some db -> (In v db <-> named rules v).
Proof. intros E. rewrite (load_in rules [] db v E). cbn. tauto. Qed.

Lemma has_iff db v : has db v = true <-> In v db.
Proof. unfold has. rewrite existsb_exists. split; [intros (x & I & E); apply N.eqb_eq in E; congruence|intros I; exists v; split; [exact I|apply N.eqb_refl]]. Qed.
Lemma has_named rules db v : newIDs rules = Some db -> (has db v = true <-> named rules v).
Proof. intros E. rewrite has_iff. apply new_in, E. Qed.
Lemma has_not rules db v : newIDs rules = Some db -> (has db v = false <-> ~ named rules v).
Proof. intros E. rewrite <- (has_named _ _ v E). destruct (has db v); split; congruence. Qed.

Lemma first_id_some name rules db ids m : newIDs rules = Some db ->
  (first_id name db ids = Some m <-> exists before id after, ids = before ++ id :: after /\ Forall (fun x => ~ named rules x) before /\ named rules id /\ m = (name, itoa id)).
Proof.
  intros E. induction ids as [|i ids IH]; cbn [first_id].
  - split; [discriminate|]. intros ([|] & id & af & H & _); discriminate.
  - destruct (has db i) eqn:H.
    + apply (has_named _ _ _ E) in H. split.
      * intros X. injection X as <-. exists [], i, ids. repeat split; auto.
      * intros ([|b bs] & id & af & X & F & Nm & ->); cbn in X; injection X as -> X; [reflexivity|]. inversion F; contradiction.
    + apply (has_not _ _ _ E) in H. rewrite IH. split.
      * intros (b & id & af & -> & F & Nm & ->). exists (i :: b), id, af. repeat split; auto.
      * intros ([|b bs] & id & af & X & F & Nm & ->); cbn in X; injection X as -> X; [contradiction|]. inversion F. exists bs, id, af. auto.
Qed.
Lemma first_id_none name rules db ids : newIDs rules = Some db -> (first_id name db ids = None <-> Forall (fun x => ~ named rules x) ids).
Proof.
  intros E. induction ids as [|i ids IH]; cbn [first_id].
  - split; [constructor|reflexivity].
  - destruct (has db i) eqn:H.
    + apply (has_named _ _ _ E) in H. split; [discriminate|]. intros F. inversion F. contradiction.
    + apply (has_not _ _ _ E) in H. rewrite IH. split; [constructor; auto|intros F; inversion F; auto].
Qed.

Lemma geo_matches name rules db lookup ip m : newIDs rules = Some db ->
  (geo_match name db lookup ip = Some m <->
   exists r before id after, lookup ip = Some r /\ p_continent r :: p_country r :: p_city r :: p_subdivisions r = before ++ id :: after /\
     Forall (fun x => ~ named rules x) before /\ named rules id /\ m = (name, itoa id)).
Proof.
  intros E. unfold geo_match. destruct (lookup ip) as [r|].
  - cbn [app]. rewrite (first_id_some _ _ _ _ _ E). split.
    + intros (b & id & af & H). exists r, b, id, af. tauto.
    + intros (r' & b & id & af & X & H). injection X as <-. exists b, id, af. exact H.
  - split; [discriminate|]. intros (r & b & id & af & X & _). discriminate.
Qed.
Lemma geo_no_match name rules db lookup ip : newIDs rules = Some db ->
  (geo_match name db lookup ip = None <-> forall r, lookup ip = Some r -> ~ named rules (p_continent r) /\ ~ named rules (p_country r) /\ ~ named rules (p_city r) /\ forall s, In s (p_subdivisions r) -> ~ named rules s).
Proof.
  intros E. unfold geo_match. destruct (lookup ip) as [r|].
  - cbn [app]. rewrite (first_id_none _ _ _ _ E). split.
    + intros F r' X. injection X as <-. inversion F as [|? ? F1 G1]; subst. inversion G1 as [|? ? F2 G2]; subst. inversion G2 as [|? ? F3 G3]; subst.
      rewrite Forall_forall in G3. auto.
    + intros H. destruct (H r eq_refl) as (A & B & C & D). repeat (apply Forall_cons; [assumption|]). apply Forall_forall. exact D.
  - split; [intros _ r X; discriminate|reflexivity].
Qed.
Lemma asn_matches name rules db lookup ip m : newIDs rules = Some db ->
  (asn_match name db lookup ip = Some m <-> exists n, lookup ip = Some n /\ named rules n /\ m = (name, itoa n)).
Proof.
  intros E. unfold asn_match. destruct (lookup ip) as [n|]; [|split; [discriminate|intros (n & X & _); discriminate]].
  destruct (has db n) eqn:H.
  - apply (has_named _ _ _ E) in H. split; [intros X; injection X as <-; exists n; auto|intros (n' & X & _ & ->); injection X as <-; reflexivity].
  - apply (has_not _ _ _ E) in H. split; [discriminate|]. intros (n' & X & Y & _). injection X as <-. contradiction.
Qed.

Lemma multi_first dbs ip m : multi_match dbs ip = Some m <-> exists before db after, dbs = before ++ db :: after /\ Forall (fun d => d ip = None) before /\ db ip = Some m.
Proof.
  induction dbs as [|d dbs IH]; cbn [multi_match].
  - split; [discriminate|]. intros ([|] & db & af & H & _); discriminate.
  - destruct (d ip) as [x|] eqn:D.
    + split; [intros X; injection X as ->; exists [], d, dbs; auto|].
      intros ([|b bs] & db & af & X & F & G); cbn in X; injection X as -> X; [congruence|]. inversion F; congruence.
    + rewrite IH. split.
      * intros (b & db & af & -> & F & G). exists (d :: b), db, af. auto.
      * intros ([|b bs] & db & af & X & F & G); cbn in X; injection X as -> X; [congruence|]. inversion F. exists bs, db, af. auto.
Qed.
Lemma multi_none dbs ip : multi_match dbs ip = None <-> forall db, In db dbs -> db ip = None.
Proof.
  induction dbs as [|d dbs IH]; cbn [multi_match]; [split; [intros _ db []|reflexivity]|].
  destruct (d ip) as [x|] eqn:D.
  - split; [discriminate|]. intros H. rewrite (H d (or_introl eq_refl)) in D. discriminate.
  - rewrite IH. split; [intros H db [<-|I]; auto|intros H db I; apply H; right; exact I].
Qed.
Lemma close_all dbs : forall i e, fst (multi_close dbs i e) = seq i (length dbs).
Proof. induction dbs as [|d dbs IH]; intros i e; cbn [multi_close length seq]; [reflexivity|]. specialize (IH (S i) (match e with None => d | Some _ => e end)). destruct (multi_close dbs (S i) _) as [c r]. cbn in *. congruence. Qed.
Lemma close_err0 dbs : forall i x, snd (multi_close dbs i (Some x)) = Some x.
Proof. induction dbs as [|d dbs IH]; intros i x; cbn [multi_close]; [reflexivity|]. specialize (IH (S i) x). destruct (multi_close dbs (S i) _) as [c r]. exact IH. Qed.
Lemma close_none dbs : forall i, snd (multi_close dbs i None) = None <-> Forall (fun e => e = None) dbs.
Proof.
  induction dbs as [|d dbs IH]; intros i; cbn [multi_close]; [split; constructor|].
  destruct d as [x|].
  - pose proof (close_err0 dbs (S i) x) as H. destruct (multi_close dbs (S i) (Some x)) as [c r]. cbn in *. split; [congruence|intros F; inversion F; discriminate].
  - specialize (IH (S i)). destruct (multi_close dbs (S i) None) as [c r]. cbn in *. rewrite IH. split; [constructor; auto|intros F; inversion F; auto].
Qed.
Lemma close_some dbs : forall i x, snd (multi_close dbs i None) = Some x <-> exists before after, dbs = before ++ Some x :: after /\ Forall (fun e => e = None) before.
Proof.
  induction dbs as [|d dbs IH]; intros i x; cbn [multi_close].
  - split; [discriminate|]. intros ([|] & af & H & _); discriminate.
  - destruct d as [y|].
    + pose proof (close_err0 dbs (S i) y) as H. destruct (multi_close dbs (S i) (Some y)) as [c r]. cbn in *. split.
      * intros X. assert (y = x) by congruence. subst. exists [], dbs. auto.
      * intros ([|b bs] & af & X & F); cbn in X; injection X as X1 X2; [congruence|]. subst b. inversion F; discriminate.
    + specialize (IH (S i) x). destruct (multi_close dbs (S i) None) as [c r]. cbn in *. rewrite IH. split.
      * intros (b & af & -> & F). exists (None :: b), af. auto.
      * intros ([|b bs] & af & X & F); cbn in X; [discriminate|]. injection X as X1 X2. inversion F. exists bs, af. auto.
Qed.

(** A database without the address in it gives 0, and so does one without the attribute. *)
Lemma zero_rule : exists rules db, newIDs rules = Some db /\ (forall name lookup ip, lookup ip = Some 0 -> asn_match name db lookup ip <> None) /\
  (forall name lookup ip subs continent country, lookup ip = Some (Place continent country 0 subs) -> geo_match name db lookup ip <> None).
Proof.
  exists ["0"%string], [0]. split; [vm_compute; reflexivity|]. split.
  - intros name lookup ip H. unfold asn_match. rewrite H. discriminate.
  - intros name lookup ip subs a b H. unfold geo_match. rewrite H. cbn [app first_id p_city p_continent p_country p_subdivisions].
    destruct (has [0] a); [discriminate|]. destruct (has [0] b); discriminate.
Qed.
(** The text before the comment *)
Lemma demo_rules : newIDs ["# Europe"; " 6255148 # EU"; ""; "2635167"]%string = Some [2635167; 6255148].
Proof. vm_compute. reflexivity. Qed.
