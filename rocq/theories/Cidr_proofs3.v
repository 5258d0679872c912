(** Loading a CIDR list and matching addresses. *)
From Verif Require Import Base Base_proofs Bytes Net Cidr_model Cidr_spec Cidr_proofs Cidr_proofs2.
From Coq Require Import ZifyBool ZifyNat ZifyN.
Local Open Scope nat_scope.

(** ** Text *)
Lemma contains_app c a b : contains c (a ++ b) = contains c a || contains c b.
Proof. induction a as [|d a IH]; [reflexivity|]. cbn. rewrite IH. apply orb_assoc. Qed.

Lemma cut_slash_none s : cut_slash s = None <-> contains slash s = false.
Proof.
  induction s as [|c s IH]; [split; reflexivity|]. cbn [cut_slash contains].
  destruct (Ascii.eqb c slash); [split; discriminate|]. cbn [orb].
  destruct (cut_slash s) as [[a b]|]; [|tauto]. split; [discriminate|]. intros H. apply IH in H. discriminate.
Qed.

Lemma cut_slash_some s a b : cut_slash s = Some (a, b) <-> s = (a ++ String slash b)%string /\ contains slash a = false.
Proof.
  revert a b. induction s as [|c s IH]; intros a b.
  - split; [discriminate|]. intros [H _]. destruct a; discriminate.
  - cbn [cut_slash]. destruct (Ascii.eqb c slash) eqn:E.
    + apply Ascii.eqb_eq in E. subst c. split.
      * intros [= <- <-]. split; reflexivity.
      * intros [H C]. destruct a as [|d a]; [cbn in H; injection H as ->; reflexivity|].
        cbn in H. injection H as <- _. discriminate C.
    + destruct (cut_slash s) as [[x y]|] eqn:F.
      * destruct (proj1 (IH x y) eq_refl) as [-> Cx]. split.
        -- intros [= <- <-]. split; [reflexivity|]. cbn. rewrite E. exact Cx.
        -- intros [H C]. destruct a as [|d a]; [cbn in H; injection H as -> _; rewrite Ascii.eqb_refl in E; discriminate|].
           cbn in H. injection H as <- H. cbn [contains] in C. rewrite E in C. cbn [orb] in C.
           assert (T : Some (x, y) = Some (a, b)) by (apply IH; split; assumption). injection T as -> ->. reflexivity.
      * split; [discriminate|]. intros [H C]. destruct a as [|d a]; [cbn in H; injection H as -> _; rewrite Ascii.eqb_refl in E; discriminate|].
        cbn in H. injection H as <- H. cbn [contains] in C. rewrite E in C.
        assert (T : None = Some (a, b)) by (apply IH; split; assumption). discriminate.
Qed.

Lemma dtoi_decimal_from s : forall acc v, dtoi_from acc s = Some v -> decimal_from acc s = Some v.
Proof.
  induction s as [|c s IH]; intros acc v H; [exact H|]. cbn [dtoi_from] in H. unfold digit in H. cbn [decimal_from]. cbv zeta in *.
  destruct (N.leb 48 (N_of_ascii c) && N.leb (N_of_ascii c) 57); [|discriminate]. cbn [andb] in H.
  destruct (N.leb 16777215 _); [discriminate|]. apply IH, H.
Qed.

Lemma decimal_from_ge s : forall acc v, decimal_from acc s = Some v -> (acc <= v)%N.
Proof.
  induction s as [|c s IH]; intros acc v H; [injection H as <-; lia|]. cbn [decimal_from] in H. cbv zeta in H.
  destruct (N.leb 48 (N_of_ascii c) && N.leb (N_of_ascii c) 57); [|discriminate]. apply IH in H. lia.
Qed.

Lemma decimal_dtoi_from s : forall acc v, (v <= 1000)%N -> decimal_from acc s = Some v -> dtoi_from acc s = Some v.
Proof.
  induction s as [|c s IH]; intros acc v L H; [exact H|]. cbn [decimal_from] in H. cbn [dtoi_from]. unfold digit. cbv zeta in *.
  destruct (N.leb 48 (N_of_ascii c) && N.leb (N_of_ascii c) 57) eqn:D; [|discriminate].
  pose proof (decimal_from_ge _ _ _ H) as G.
  destruct (N.leb 16777215 (acc * 10 + (N_of_ascii c - 48))) eqn:B; [apply N.leb_le in B; lia|].
  apply IH; assumption.
Qed.

Lemma dtoi_decimal s v : (v <= 1000)%N -> (dtoi s = Some v <-> decimal s v).
Proof.
  intros L. unfold dtoi, decimal. destruct s as [|c s].
  - split; [discriminate|]. intros [H _]. destruct H. reflexivity.
  - split.
    + intros H. split; [discriminate|]. apply dtoi_decimal_from, H.
    + intros [_ H]. apply decimal_dtoi_from; assumption.
Qed.

Lemma dtoi_decimal1 s v : dtoi s = Some v -> decimal s v.
Proof.
  unfold dtoi, decimal. destruct s as [|c s]; [discriminate|]. intros H. split; [discriminate|]. apply dtoi_decimal_from, H.
Qed.

Section P.
Variable parseAddr : string -> option bytes.
Hypothesis PO : parse_ok parseAddr.
Notation denotes := (denotes parseAddr).
Notation rule_of := (rule_of parseAddr).
Notation parseCIDR := (parseCIDR parseAddr).

Lemma blank_text r : rule_text r = None <-> blank r.
Proof.
  unfold rule_text, blank. cbv zeta. destruct (trim_space r) as [|c s] eqn:E.
  - cbn. split; [intros _; left; reflexivity|reflexivity].
  - cbn [has_prefix String.prefix String.eqb]. rewrite orb_false_r. unfold has_prefix, prefix.
    destruct (ascii_dec "#" c) as [<-|n].
    + split; [intros _; right; exists s; reflexivity|destruct s; reflexivity].
    + split; [discriminate|]. intros [H|(x & H)]; [discriminate|]. cbn in H. injection H as -> _. destruct n. reflexivity.
Qed.

Lemma parse_len s a : parseAddr s = Some a -> length a = 4 \/ length a = 16.
Proof. intros H. apply (PO _ _ H). Qed.

Lemma parse_cidr s : contains slash s = true ->
  match parseCIDR s with
  | None => forall x d a v, s = (x ++ String slash d)%string -> contains slash x = false -> parseAddr x = Some a -> decimal d v ->
                            (v <= N.of_nat (8 * length a))%N -> False
  | Some (ip, n) => exists x d a v, s = (x ++ String slash d)%string /\ contains slash x = false /\ parseAddr x = Some a /\ decimal d v /\
                      (v <= N.of_nat (8 * length a))%N /\
                      ip = match to16 a with Some y => y | None => a end /\
                      n = Cidr (land_bytes a (mask_bytes (N.to_nat v) (length a))) (N.to_nat v) (8 * length a)
  end.
Proof.
  intros C. unfold parseCIDR. destruct (cut_slash s) as [[x d]|] eqn:E.
  2: { apply cut_slash_none in E. congruence. }
  pose proof E as E0. apply cut_slash_some in E. destruct E as [Es Cx].
  destruct (parseAddr x) as [a|] eqn:Pa.
  2: { intros x' d' a' v' Es' Cx' Pa' _ _. assert (T : cut_slash s = Some (x', d')) by (apply cut_slash_some; split; assumption).
       rewrite E0 in T. injection T as -> ->. congruence. }
  destruct (dtoi d) as [v|] eqn:D.
  - cbv zeta. destruct (N.leb v (N.of_nat (8 * length a))) eqn:L.
    + apply N.leb_le in L. exists x, d, a, v. pose proof (dtoi_decimal1 _ _ D). auto 10.
    + apply N.leb_gt in L. intros x' d' a' v' Es' Cx' Pa' D' L'. assert (T : cut_slash s = Some (x', d')) by (apply cut_slash_some; split; assumption).
      rewrite E0 in T. injection T as <- <-. rewrite Pa in Pa'. injection Pa' as <-.
      destruct D' as [_ D']. apply dtoi_decimal1 in D. destruct D as [_ D]. rewrite D in D'. injection D' as <-. lia.
  - intros x' d' a' v' Es' Cx' Pa' D' L'. assert (T : cut_slash s = Some (x', d')) by (apply cut_slash_some; split; assumption).
    rewrite E0 in T. injection T as <- <-. rewrite Pa in Pa'. injection Pa' as <-.
    apply dtoi_decimal in D'; [congruence|]. pose proof (parse_len _ _ Pa). lia.
Qed.

Lemma dec32 : decimal "32" 32%N. Proof. split; [discriminate|reflexivity]. Qed.
Lemma dec128 : decimal "128" 128%N. Proof. split; [discriminate|reflexivity]. Qed.

Lemma app_slash_inj x d x' d' : (x ++ String slash d)%string = (x' ++ String slash d')%string ->
  contains slash x = false -> contains slash x' = false -> x = x' /\ d = d'.
Proof.
  intros E C C'. assert (T : Some (x, d) = Some (x', d')).
  { transitivity (cut_slash (x ++ String slash d)); [symmetry|rewrite E]; apply cut_slash_some; split; auto. }
  injection T as -> ->. split; reflexivity.
Qed.

(** The address and the number of bits that are added for a line *)
Definition taken (line : string) (a : bytes) (q : nat) : Prop :=
  exists p, denotes line a p /\ ((dotted line a /\ q = 32) \/ (~ dotted line a /\ q = p)).

(** What ParseCIDR makes of a line that holds a rule *)
Lemma line_parse r s : rule_text r = Some s ->
  match parseCIDR s with
  | None => forall a p, ~ denotes r a p
  | Some (ip, n) => exists a p a' p', denotes r a' p' /\ parse_ok parseAddr /\ ip_ok a /\ p <= 8 * length a /\
                      ip = match to16 a with Some y => y | None => a end /\
                      n = Cidr (land_bytes a (mask_bytes p (length a))) p (8 * length a) /\
                      (forall a2 p2, taken r a2 p2 <-> a2 = a /\ p2 = p)
  end.
Proof.
  intros R. pose proof R as NB. assert (Nb : rule_text r <> None) by congruence. rewrite blank_text in Nb. clear NB.
  unfold rule_text in R. cbv zeta in R. destruct (_ || _); [discriminate|]. injection R as R.
  set (t := trim_space r) in *.
  destruct (contains slash t) eqn:C.
  - subst s. pose proof (parse_cidr t C) as P. destruct (parseCIDR t) as [[ip n]|].
    + destruct P as (x & d & a & v & Et & Cx & Pa & D & L & -> & ->). exists a, (N.to_nat v), a, (N.to_nat v).
      split; [eapply Den_net; [exact Et|exact Cx|exact Pa|exact D|exact L]|].
      split; [exact PO|]. split; [apply (PO _ _ Pa)|]. split; [lia|]. split; [reflexivity|]. split; [reflexivity|].
      assert (U : forall a2 p2, denotes r a2 p2 -> a2 = a /\ p2 = N.to_nat v).
      { intros a2 p2 H. inversion H as [x2 d2 a3 v2 Et2 Cx2 Pa2 D2 L2|a3 C2 Pa2]; subst.
        - fold t in Et2. rewrite Et in Et2. destruct (app_slash_inj _ _ _ _ Et2 Cx Cx2) as [-> ->].
          rewrite Pa in Pa2. injection Pa2 as <-. destruct D as [_ D], D2 as [_ D2]. rewrite D in D2. injection D2 as <-. split; reflexivity.
        - fold t in C2. unfold slash in C. congruence. }
      assert (Nd : forall a2, ~ dotted r a2) by (intros a2 (Ns & _); fold t in Ns; unfold slash in C; congruence).
      intros a2 p2. split.
      * intros (p3 & H & [[Dd _]|[_ ->]]); [destruct (Nd _ Dd)|apply U, H].
      * intros [-> ->]. exists (N.to_nat v). split; [eapply Den_net; [exact Et|exact Cx|exact Pa|exact D|exact L]|].
        right. split; [apply Nd|reflexivity].
    + intros a p H. inversion H as [x2 d2 a3 v2 Et2 Cx2 Pa2 D2 L2|a3 C2 Pa2]; subst.
      * eapply P; eassumption.
      * fold t in C2. unfold slash in C. congruence.
  - assert (G : forall w v, s = (t ++ String slash w)%string -> decimal w v -> (v = 32 \/ v = 128)%N ->
        (v = 32%N -> contains dot t = true) -> (v = 128%N -> contains dot t = false) ->
        match parseCIDR s with
        | None => parseAddr t = None
        | Some (ip, n) => exists a, parseAddr t = Some a /\ N.to_nat v <= 8 * length a /\ ip = match to16 a with Some y => y | None => a end /\
                   n = Cidr (land_bytes a (mask_bytes (N.to_nat v) (length a))) (N.to_nat v) (8 * length a)
        end).
    { intros w v Es D V V1 V2. assert (Cs : contains slash s = true). { rewrite Es, contains_app. cbn. rewrite orb_true_r. reflexivity. }
      pose proof (parse_cidr s Cs) as P. destruct (parseCIDR s) as [[ip n]|].
      - destruct P as (x & d & a & v' & Et & Cx & Pa & D' & L & -> & ->). rewrite Es in Et.
        destruct (app_slash_inj _ _ _ _ Et C Cx) as [<- <-]. destruct D as [_ D], D' as [_ D']. rewrite D in D'. injection D' as <-.
        exists a. split; [exact Pa|]. split; [lia|]. split; reflexivity.
      - destruct (parseAddr t) as [a|] eqn:Pa; [|reflexivity]. destruct (P t w a v Es C Pa D).
        destruct (PO _ _ Pa) as ([_ [L|L]] & P4 & P16); rewrite L; destruct V as [-> | ->]; try lia.
        specialize (V2 eq_refl). unfold dot in V2. rewrite (P4 L) in V2. discriminate. }
    assert (Dn : forall a p, denotes r a p <-> parseAddr t = Some a /\ p = 8 * length a).
    { intros a p. split.
      - intros H. inversion H as [x2 d2 a3 v2 Et2 Cx2 Pa2 D2 L2|a3 C2 Pa2]; subst.
        + fold t in Et2. rewrite Et2, contains_app in C. cbn in C. rewrite orb_true_r in C. discriminate.
        + split; [exact Pa2|reflexivity].
      - intros [Pa ->]. apply Den_ip; assumption. }
    destruct (contains dot t) eqn:Cd; [|destruct (contains ":"%char t) eqn:Cc].
    + specialize (G "32"%string 32%N (eq_sym R) dec32 (or_introl eq_refl) (fun _ => eq_refl) ltac:(discriminate)).
      destruct (parseCIDR s) as [[ip n]|].
      * destruct G as (a & Pa & L & -> & ->). exists a, (N.to_nat 32), a, (8 * length a).
        split; [apply Dn; split; [exact Pa|reflexivity]|]. split; [exact PO|]. split; [apply (PO _ _ Pa)|]. split; [exact L|].
        split; [reflexivity|]. split; [reflexivity|].
        intros a2 p2. split.
        -- intros (p3 & H & Q). apply Dn in H. destruct H as [H ->]. assert (a2 = a) by congruence. subst a2. split; [reflexivity|].
           destruct Q as [[_ ->]|[Nd ->]]; [reflexivity|]. destruct (parse_len _ _ Pa) as [L4|L16]; [rewrite L4; reflexivity|].
           destruct Nd. split; [exact C|]. split; [exact Cd|exact L16].
        -- intros [-> ->]. exists (8 * length a). split; [apply Dn; split; [exact Pa|reflexivity]|].
           destruct (parse_len _ _ Pa) as [L4|L16].
           ++ right. split; [intros (_ & _ & T); congruence|]. rewrite L4. reflexivity.
           ++ left. split; [|reflexivity]. split; [exact C|]. split; [exact Cd|exact L16].
      * intros a p H. apply Dn in H. destruct H. congruence.
    + specialize (G "128"%string 128%N (eq_sym R) dec128 (or_intror eq_refl) ltac:(discriminate) (fun _ => eq_refl)).
      destruct (parseCIDR s) as [[ip n]|].
      * destruct G as (a & Pa & L & -> & ->). exists a, (N.to_nat 128), a, (8 * length a).
        split; [apply Dn; split; [exact Pa|reflexivity]|]. split; [exact PO|]. split; [apply (PO _ _ Pa)|]. split; [exact L|].
        split; [reflexivity|]. split; [reflexivity|].
        assert (L16 : length a = 16).
        { destruct (PO _ _ Pa) as ([_ [L4|L4]] & P4 & _); [|exact L4]. unfold dot in Cd. rewrite (P4 L4) in Cd. discriminate. }
        assert (Nd : forall a2, ~ dotted r a2) by (intros a2 (_ & Ns & _); fold t in Ns; unfold dot in Cd; congruence).
        intros a2 p2. split.
        -- intros (p3 & H & [[Dd _]|[_ ->]]); [destruct (Nd _ Dd)|]. apply Dn in H. destruct H as [H ->].
           assert (a2 = a) by congruence. subst a2. rewrite L16. split; reflexivity.
        -- intros [-> ->]. exists (8 * length a). split; [apply Dn; split; [exact Pa|reflexivity]|].
           right. split; [apply Nd|]. rewrite L16. reflexivity.
      * intros a p H. apply Dn in H. destruct H. congruence.
    + subst s. assert (T : parseCIDR t = None). { unfold parseCIDR. rewrite (proj2 (cut_slash_none t) C). reflexivity. }
      rewrite T. intros a p H. apply Dn in H. destruct H as [Pa _].
      destruct (PO _ _ Pa) as ([_ [L4|L4]] & P4 & P16); [unfold dot in Cd; rewrite (P4 L4) in Cd|rewrite (P16 L4) in Cc]; discriminate.
Qed.

(** ** Loading *)
Definition fam (v4 : bool) (a : bytes) : Prop := if v4 then length a = 4 \/ mapped a else length a = 16 /\ ~ mapped a.
Definition okp (v4 : bool) (rules : list string) (L : list (list bool)) : Prop :=
  forall b, In b L <-> exists line a p, In line rules /\ ~ blank line /\ taken line a p /\ fam v4 a /\ b = firstn p (bits a).

Lemma okp_blank v4 r rules L : blank r -> okp v4 rules L -> okp v4 (r :: rules) L.
Proof.
  intros B H b. rewrite (H b). split; intros (line & a & p & I & D & R).
  - exists line, a, p. split; [right; exact I|]. split; assumption.
  - destruct I as [<-|I]; [contradiction|]. exists line, a, p. split; [exact I|]. split; assumption.
Qed.

Lemma okp_other v4 r rules L a p : (forall a2 p2, taken r a2 p2 <-> a2 = a /\ p2 = p) -> ~ fam v4 a -> okp v4 rules L -> okp v4 (r :: rules) L.
Proof.
  intros U Na H b. rewrite (H b). split; intros (line & a1 & p1 & I & Nb & D & R).
  - exists line, a1, p1. split; [right; exact I|]. auto.
  - destruct I as [<-|I].
    + apply U in D. destruct D as [-> ->]. destruct R. contradiction.
    + exists line, a1, p1. auto.
Qed.

Lemma okp_add v4 r rules L a p : ~ blank r -> (forall a2 p2, taken r a2 p2 <-> a2 = a /\ p2 = p) -> fam v4 a ->
  okp v4 rules L -> okp v4 (r :: rules) (firstn p (bits a) :: L).
Proof.
  intros Nb U La H b. cbn [In]. rewrite (H b). split.
  - intros [<-|(line & a1 & p1 & I & R)].
    + exists r, a, p. split; [left; reflexivity|]. split; [exact Nb|]. split; [apply U; split; reflexivity|]. split; [exact La|reflexivity].
    + exists line, a1, p1. split; [right; exact I|exact R].
  - intros (line & a1 & p1 & [<-|I] & Nb1 & D & R).
    + apply U in D. destruct D as [-> ->]. left. symmetry. apply R.
    + right. exists line, a1, p1. auto.
Qed.

Lemma fam_to4 a : ip_ok a ->
  match to4 (match to16 a with Some x => x | None => a end) with
  | None => fam false a /\ ~ fam true a
  | Some _ => fam true a /\ ~ fam false a
  end.
Proof.
  intros Ia. assert (D : mapped a \/ ~ mapped a).
  { destruct Ia as [Ba [L|L]]; [right; intros [T _]; congruence|apply mapped_dec; assumption]. }
  destruct D as [M|M].
  - destruct Ia as [Ba _]. pose proof M as [L _]. unfold to16. rewrite L. cbn [Nat.eqb]. rewrite (proj1 (to4_16 a Ba L) M).
    split; [right; exact M|]. intros [_ N]. contradiction.
  - pose proof (to16_to4 a Ia M) as T. destruct (to4 _) as [y|].
    + split; [left; exact T|]. intros [T' _]. congruence.
    + split; [split; [exact T|exact M]|]. intros [T'|T']; [congruence|contradiction].
Qed.

Lemma load_spec rules : forall pre db db' L4 L6,
  holds (ip4 db) L4 -> holds (ip6 db) L6 -> okp true pre L4 -> okp false pre L6 ->
  load_rules parseAddr rules db = Some db' ->
  exists M4 M6, holds (ip4 db') M4 /\ holds (ip6 db') M6 /\ okp true (rev rules ++ pre) M4 /\ okp false (rev rules ++ pre) M6.
Proof.
  induction rules as [|r rules IH]; intros pre db db' L4 L6 H4 H6 O4 O6 E.
  - injection E as <-. exists L4, L6. auto.
  - cbn [load_rules] in E. cbn [rev]. rewrite <- app_assoc. cbn [app].
    destruct (rule_text r) as [s|] eqn:R.
    2: { apply blank_text in R. apply (IH (r :: pre) db db' L4 L6); auto using okp_blank. }
    pose proof (line_parse r s R) as P. destruct (parseCIDR s) as [[ip n]|]; [|discriminate].
    destruct P as (a & p & a' & p' & D & _ & Ia & Lp & -> & -> & U).
    assert (Nb : ~ blank r) by (intros B; apply blank_text in B; congruence).
    pose proof (fam_to4 a Ia) as T. destruct Ia as [Ba La].
    unfold trie_add in E. cbn [c_ip c_ones] in E.
    assert (Ll : p <= 8 * length (land_bytes a (mask_bytes p (length a)))) by (rewrite land_bytes_length; exact Lp).
    destruct (to4 _) as [x4|]; destruct T as [F NF].
    + destruct (holds_add (ip4 db) L4 _ p H4 Ll) as (t' & Et & Ht). rewrite Et in E.
      rewrite land_bits in Ht by assumption.
      apply (IH (r :: pre) (CidrDB t' (ip6 db)) db' (firstn p (bits a) :: L4) L6 Ht H6); [apply okp_add; assumption| |exact E].
      apply (okp_other false r pre L6 a p U NF O6).
    + destruct (holds_add (ip6 db) L6 _ p H6 Ll) as (t' & Et & Ht). rewrite Et in E.
      rewrite land_bits in Ht by assumption.
      apply (IH (r :: pre) (CidrDB (ip4 db) t') db' L4 (firstn p (bits a) :: L6) H4 Ht); [|apply okp_add; assumption|exact E].
      apply (okp_other true r pre L4 a p U NF O4).
Qed.

(** The list loads exactly if every line is blank or a rule. *)
Lemma load_total rules : forall db, (exists db', load_rules parseAddr rules db = Some db') <->
  (forall line, In line rules -> blank line \/ exists a p, rule_of line a p).
Proof.
  induction rules as [|r rules IH]; intros db.
  - split; [intros _ line []|intros _; exists db; reflexivity].
  - cbn [load_rules]. destruct (rule_text r) as [s|] eqn:R.
    + pose proof (line_parse r s R) as P. assert (Nb : ~ blank r) by (intros B; apply blank_text in B; congruence).
      destruct (parseCIDR s) as [[ip n]|].
      * destruct P as (a & p & a' & p' & D & _ & Ia & Lp & _ & -> & U).
        unfold trie_add. cbn [c_ip c_ones].
        assert (Ll : 0 + p <= 8 * length (land_bytes a (mask_bytes p (length a)))) by (rewrite land_bytes_length; lia).
        destruct (to4 ip); rewrite (add_from_bits _ _ _ _ Ll); rewrite IH.
        -- split; intros H line; [intros [<-|I]; [right; exists a', p'; split; assumption|apply H, I]|intros I; apply H; right; exact I].
        -- split; intros H line; [intros [<-|I]; [right; exists a', p'; split; assumption|apply H, I]|intros I; apply H; right; exact I].
      * split; [intros [? H]; discriminate|]. intros H. destruct (H r (or_introl eq_refl)) as [B|(a & p & _ & D)]; [contradiction|].
        destruct (P a p D).
    + apply blank_text in R. rewrite IH. split; intros H line.
      * intros [<-|I]; [left; exact R|apply H, I].
      * intros I. apply H. right. exact I.
Qed.

(** ** Matching *)
Lemma in_rev_iff {A} (l : list A) x : In x (rev l ++ []) <-> In x l.
Proof. rewrite app_nil_r. symmetry. apply in_rev. Qed.

Lemma rule_ok line a p : rule_of line a p -> ip_ok a /\ p <= 8 * length a.
Proof.
  intros [_ D]. inversion D as [x d a3 v Et Cx Pa Dv L|a3 C Pa]; subst.
  - split; [apply (PO _ _ Pa)|lia].
  - split; [apply (PO _ _ Pa)|lia].
Qed.

Lemma dotted_dec line a : dotted line a \/ ~ dotted line a.
Proof.
  unfold dotted. destruct (contains "/" (trim_space line)); [right; intros (? & _); discriminate|].
  destruct (contains "." (trim_space line)); [|right; intros (_ & ? & _); discriminate].
  destruct (Nat.eq_dec (length a) 16) as [E|E]; [left|right; intros (_ & _ & ?); contradiction]. auto.
Qed.

(** The first 32 bits of a mapped address *)
Lemma mapped_bits a : bytes_ok a -> mapped a -> firstn 32 (bits a) = bits [0;0;0;0]%N.
Proof.
  intros Ba M. pose proof M as [L _]. pose proof (proj1 (to4_16 a Ba L) M) as T. unfold to4 in T. rewrite L in T. cbn [Nat.eqb] in T.
  destruct (list_eq_dec N.eq_dec (firstn 12 a) v4prefix) as [E|E]; [|discriminate].
  rewrite <- (firstn_skipn 12 a), E. reflexivity.
Qed.

Lemma firstn_min {A} (l : list A) i j : i <= j -> firstn i l = firstn i (firstn j l).
Proof. intros H. rewrite firstn_firstn. f_equal. lia. Qed.

(** Entries of the IPv4 trie and of the IPv6 trie against the networks of the lines *)
Lemma entry_net (v4 : bool) line a q x i : ~ blank line -> taken line a q -> fam v4 a -> bytes_ok x -> length x = (if v4 then 4 else 16) ->
  i = Nat.min (length (firstn q (bits a))) (8 * length x) -> firstn i (firstn q (bits a)) = firstn i (bits x) ->
  exists e, effective parseAddr line e i /\ in_net e i x.
Proof.
  intros Nb (p & D & Q) F Bx Lx Ei E. pose proof (rule_ok line a p (conj Nb D)) as [Ia Lp]. pose proof Ia as [Ba _].
  assert (Lq : q <= 8 * length a).
  { destruct Q as [[(_ & _ & L) ->]|[_ ->]]; lia. }
  rewrite firstn_length, bits_length, (Nat.min_l _ _ Lq) in Ei. rewrite firstn_firstn, (Nat.min_l i q) in E by lia.
  assert (Fm : mapped a \/ (~ mapped a /\ length a = length x)).
  { destruct v4; [|right; destruct F as [F1 F2]; split; [exact F2|congruence]]. destruct F as [F|F]; [right|left; exact F].
    split; [intros [T _]; congruence|congruence]. }
  destruct Fm as [M|[M L]].
  - destruct v4; [|destruct F as [_ F]; contradiction]. rewrite Lx in Ei. exists [0;0;0;0]%N.
    assert (Em : i = Nat.min p 32).
    { destruct Q as [[(C & _ & L) ->]|[_ ->]]; [|lia]. inversion D as [x0 d a3 v Et Cx Pa Dv Lv|a3 C' Pa]; subst; [|lia].
      rewrite Et, contains_app in C. cbn in C. rewrite orb_true_r in C. discriminate. }
    split; [rewrite Em; apply (Eff_mapped parseAddr line a p (conj Nb D) M)|].
    apply in_net_bits; [repeat constructor|exact Bx|cbn [length]; lia|symmetry; exact Lx|].
    rewrite <- E. rewrite (firstn_min (bits a) i 32) by lia. rewrite (mapped_bits a Ba M). reflexivity.
  - exists a. rewrite <- L in Ei. rewrite Nat.min_l in Ei by exact Lq. subst q. split.
    + destruct Q as [[Dt ->]|[Dt ->]]; [apply (Eff_dotted parseAddr line a p (conj Nb D) M Dt)|apply (Eff_plain parseAddr line a p (conj Nb D) M Dt)].
    + apply in_net_bits; auto.
Qed.

Lemma net_entry (v4 : bool) line e i x : effective parseAddr line e i -> bytes_ok x -> length x = (if v4 then 4 else 16) ->
  (v4 = false -> ~ mapped x) -> in_net e i x ->
  exists a q, ~ blank line /\ taken line a q /\ (fam v4 a) /\
    (prefixb (firstn q (bits a)) (bits x) \/ prefixb (bits x) (firstn q (bits a))).
Proof.
  intros Ef Bx Lx Nx N. pose proof N as [Le _].
  assert (Pl : forall a q, rule_of line a q -> ~ mapped a -> length a = length x -> fam v4 a).
  { intros a q R M L. destruct v4; cbn; [left; congruence|split; [congruence|exact M]]. }
  inversion Ef as [a p R M Dt E1 E2|a p R M Dt E1 E2|a p R M E1 E2]; subst.
  - destruct (rule_ok _ _ _ R) as [[Ba _] Lp]. exists e, i. split; [apply R|]. split; [exists i; split; [apply R|right; split; [exact Dt|reflexivity]]|].
    split; [apply (Pl e i R M Le)|]. left. apply prefixb_firstn. rewrite firstn_length, bits_length, Nat.min_l by exact Lp.
    symmetry. apply in_net_bits; auto.
  - destruct (rule_ok _ _ _ R) as [[Ba _] Lp]. pose proof Dt as (_ & _ & L16). exists e, 32. split; [apply R|].
    split; [exists p; split; [apply R|left; split; [exact Dt|reflexivity]]|].
    split; [apply (Pl e p R M Le)|]. left. apply prefixb_firstn. rewrite firstn_length, bits_length, Nat.min_l by lia.
    symmetry. apply in_net_bits; auto. lia.
  - destruct (rule_ok _ _ _ R) as [[Ba _] Lp]. pose proof M as [La _]. cbn [length] in Le. destruct v4; [|rewrite Lx in Le; discriminate].
    apply in_net_bits in N; [|repeat constructor|exact Bx|cbn [length]; lia|exact Le]. rewrite <- (mapped_bits a Ba M) in N.
    rewrite firstn_firstn in N. replace (Nat.min (Nat.min p 32) 32) with (Nat.min p 32) in N by lia.
    assert (G : exists q, taken line a q /\ q <= 128 /\ Nat.min q 32 = Nat.min p 32).
    { destruct (dotted_dec line a) as [Dt|Dt].
      - exists 32. split; [exists p; split; [apply R|left; auto]|]. split; [lia|]. destruct Dt as (C & _ & L).
        destruct R as [_ D]. inversion D as [x0 d a3 v Et Cx Pa Dv Lv|a3 C' Pa]; subst; [|lia].
        rewrite Et, contains_app in C. cbn in C. rewrite orb_true_r in C. discriminate.
      - exists p. split; [exists p; split; [apply R|right; auto]|]. split; lia. }
    destruct G as (q & T & Lq & Em). rewrite <- Em in N. exists a, q. split; [apply R|]. split; [exact T|]. split; [right; exact M|].
    destruct (le_lt_dec q 32) as [Q|Q].
    + left. apply prefixb_firstn. rewrite firstn_length, bits_length, Nat.min_l by lia. rewrite Nat.min_l in N by exact Q. symmetry. exact N.
    + right. apply prefixb_firstn. rewrite bits_length, Lx. rewrite Nat.min_r in N by lia. rewrite firstn_firstn, Nat.min_l by lia.
      change (8 * 4) with 32. rewrite N. apply firstn_all2. rewrite bits_length. lia.
Qed.

Lemma has_ip (v4 : bool) t rules L x ip : length x = (if v4 then 4 else 16) -> bytes_ok x -> (v4 = false -> ~ mapped x) ->
  holds t L -> okp v4 rules L ->
  to4 ip = (if v4 then Some x else None) -> (v4 = false -> ip = x) ->
  match hasIP t ip with
  | None => False
  | Some None => forall line a p, In line rules -> effective parseAddr line a p -> ~ in_net a p x
  | Some (Some r) => exists line a p, In line rules /\ effective parseAddr line a p /\ in_net a p x /\
                       c_ones r = p /\ c_bits r = 8 * length a /\ first_addr a p (c_ip r)
  end.
Proof.
  intros Lx Bx Nx H O T4 Tip. unfold hasIP. destruct t as [q|].
  2: { cbn in H. subst L. intros line a p I R N. destruct (net_entry v4 line a p x R Bx Lx Nx N) as (a' & q & Nb & T & F & _).
       assert (X : In (firstn q (bits a')) []) by (apply O; exists line, a', q; auto). destruct X. }
  assert (E : (match to4 ip with Some a => (a, 32) | None => (ip, 128) end) = (x, 8 * length x)).
  { rewrite T4, Lx. destruct v4; [reflexivity|]. rewrite Tip by reflexivity. reflexivity. }
  rewrite E. cbv zeta. pose proof (holds_walk q L x H) as W.
  destruct (walk x (8 * length x) 0 q) as [[i|]|]; [| |exact W].
  - destruct W as (b & I & Ei & Ef). apply O in I. destruct I as (line & a & p & I & Nb & T & F & ->).
    destruct (entry_net v4 line a p x i Nb T F Bx Lx Ei Ef) as (e & R & N).
    exists line, e, i. split; [exact I|]. split; [exact R|]. split; [exact N|].
    unfold ruleString. cbn [c_ones c_bits c_ip]. pose proof N as [Le _].
    assert (Sz : match to4 x with Some _ => 4 | None => 16 end = length x).
    { destruct v4; [rewrite (to4_4 x Lx), Lx; reflexivity|]. rewrite <- (Tip eq_refl), T4, (Tip eq_refl), Lx. reflexivity. }
    cbv zeta. rewrite Sz. split; [reflexivity|]. split; [rewrite Le; reflexivity|].
    assert (Li : i <= 8 * length x) by lia.
    pose proof (land_first_addr x i Bx Li) as (F1 & F2 & F3).
    split; [exact F1|]. split; [congruence|]. destruct N as [Ln N]. cbv zeta in *. rewrite F3, <- Ln, N. reflexivity.
  - intros line a p I R N. destruct (net_entry v4 line a p x R Bx Lx Nx N) as (a' & q' & Nb & T & F & P).
    assert (X : In (firstn q' (bits a')) L) by (apply O; exists line, a', q'; auto). destruct (W _ X). tauto.
Qed.

Lemma match_spec rules db ip x : newCidrDB parseAddr rules = Some db ->
  ip_ok ip -> plain_addr ip x ->
  match cidr_match db ip with
  | None => False
  | Some None => forall line a p, In line rules -> effective parseAddr line a p -> ~ in_net a p x
  | Some (Some r) => exists line a p, In line rules /\ effective parseAddr line a p /\ in_net a p x /\
                       c_ones r = p /\ c_bits r = 8 * length a /\ first_addr a p (c_ip r)
  end.
Proof.
  intros E [Bip Lip] Px.
  destruct (load_spec rules [] (CidrDB None None) db [] [] eq_refl eq_refl) as (M4 & M6 & H4 & H6 & O4 & O6).
  - intros b. split; [intros []|]. intros (line & a & p & [] & _).
  - intros b. split; [intros []|]. intros (line & a & p & [] & _).
  - exact E.
  - assert (W : forall n L, okp n (rev rules ++ []) L -> okp n rules L).
    { intros n L O b. rewrite (O b). split; intros (line & a & p & I & R); exists line, a, p; (split; [|exact R]); apply in_rev_iff; exact I. }
    apply W in O4, O6. clear W.
    unfold cidr_match. destruct (Nat.eqb (length ip) 0) eqn:Z; [apply Nat.eqb_eq in Z; lia|].
    destruct Px as [[Nm ->]|(pre & Mp & -> & Lx)].
    + destruct Lip as [L|L].
      * rewrite (to4_4 ip L). apply (has_ip true (ip4 db) rules M4 ip ip L); auto. rewrite (to4_4 ip L). reflexivity.
      * rewrite (proj2 (to4_16 ip Bip L) Nm). apply (has_ip false (ip6 db) rules M6 ip ip L); auto. rewrite (proj2 (to4_16 ip Bip L) Nm). reflexivity.
    + pose proof Mp as [L _]. pose proof (proj1 (to4_16 _ Bip L) Mp) as T.
      rewrite app_length in L. assert (Lp : length pre = 12) by lia.
      rewrite skipn_app, Lp, Nat.sub_diag, skipn_O, skipn_all2 in T by lia. cbn [app] in T.
      rewrite T. apply (has_ip true (ip4 db) rules M4 x (pre ++ x) Lx); auto.
      * apply Forall_app in Bip. tauto.
      * discriminate.
      * discriminate.
Qed.

(** A regular line is taken for the network it stands for. *)
Lemma regular_effective line : regular parseAddr line -> forall a p, effective parseAddr line a p <-> rule_of line a p.
Proof.
  intros Rg a p. split.
  - intros H. inversion H as [a' p' R M Dt E1 E2|a' p' R M Dt E1 E2|a' p' R M E1 E2]; subst; [exact R| |].
    + destruct (Rg _ _ R). contradiction.
    + destruct (Rg _ _ R). contradiction.
  - intros R. destruct (Rg _ _ R) as [M Dt]. apply (Eff_plain parseAddr line a p R M Dt).
Qed.
End P.

Lemma match_order parseAddr : parse_ok parseAddr -> forall rules rules' db db' ip x,
  (forall line, In line rules <-> In line rules') ->
  newCidrDB parseAddr rules = Some db -> newCidrDB parseAddr rules' = Some db' ->
  ip_ok ip -> plain_addr ip x ->
  (cidr_match db ip = Some None <-> cidr_match db' ip = Some None).
Proof.
  intros PO rules rules' db db' ip x Eq E E' Hip Px.
  pose proof (match_spec parseAddr PO rules db ip x E Hip Px) as M.
  pose proof (match_spec parseAddr PO rules' db' ip x E' Hip Px) as M'.
  destruct (cidr_match db ip) as [[r|]|]; [| |contradiction]; (destruct (cidr_match db' ip) as [[r'|]|]; [| |contradiction]).
  - split; discriminate.
  - destruct M as (line & a & p & I & R & N & _). destruct (M' line a p); [apply Eq, I|exact R|exact N].
  - destruct M' as (line & a & p & I & R & N & _). destruct (M line a p); [apply Eq, I|exact R|exact N].
  - split; reflexivity.
Qed.

(** ** Examples *)
Definition demo_parse (s : string) : option bytes :=
  if String.eqb s "10.0.0.0" then Some [10;0;0;0]%N
  else if String.eqb s "10.1.2.3" then Some [10;1;2;3]%N
  else if String.eqb s "2001:db8::1" then Some ([32;1;13;184] ++ repeat 0 11 ++ [1])%list%N
  else if String.eqb s "::ffff:1.2.3.0" then Some (v4prefix ++ [1;2;3;0])%list%N
  else if String.eqb s "64:ff9b::1.2.3.4" then Some ([0;100;255;155] ++ repeat 0 8 ++ [1;2;3;4])%list%N
  else None.
Definition demo_rules : list string := ["10.1.2.3"; " 10.0.0.0/8 "; "# comment"; "10.1.2.3/24"; "2001:db8::1"; ""]%string.

Lemma demo_parse_ok : parse_ok demo_parse.
Proof.
  intros s a. unfold demo_parse.
  repeat match goal with
         | |- context [String.eqb s ?t] => destruct (String.eqb_spec s t) as [->|_]
         end; intros E; try discriminate; injection E as <-;
    (split; [split; [repeat constructor|]|split]); cbn; try reflexivity; try discriminate; auto.
Qed.

Ltac demo_den :=
  match goal with
  | H : denotes _ _ _ _ |- _ =>
      inversion H as [x d a3 v Et Cx Pa Dv L|a3 C Pa]; subst; clear H
  end.

Lemma demo_small s a : demo_parse s = Some a -> mapped a -> s = "::ffff:1.2.3.0"%string.
Proof.
  unfold demo_parse, mapped.
  repeat match goal with
         | |- context [String.eqb s ?t] => destruct (String.eqb_spec s t) as [->|_]
         end; intros E [_ M]; try discriminate; injection E as <-; try (vm_compute in M; discriminate); reflexivity.
Qed.

Lemma demo_hyps : parse_ok demo_parse /\ Forall (regular demo_parse) demo_rules.
Proof.
  split; [exact demo_parse_ok|].
  assert (G : forall line, contains "f" (trim_space line) = false -> (contains "." (trim_space line) = true -> contains ":" (trim_space line) = false) -> regular demo_parse line).
  { intros line F Q a p [_ D]. split.
    - intros M. inversion D as [x d a3 v Et Cx Pa Dv L|a3 C Pa]; subst.
      + apply demo_small in Pa; [|exact M]. subst x. rewrite Et, contains_app in F. discriminate.
      + apply demo_small in Pa; [|exact M]. rewrite Pa in F. discriminate.
    - intros (C & Cd & L16). inversion D as [x d a3 v Et Cx Pa Dv L|a3 C' Pa]; subst.
      + rewrite Et, contains_app in C. cbn in C. rewrite orb_true_r in C. discriminate.
      + destruct (demo_parse_ok _ _ Pa) as (_ & _ & P16). rewrite (Q Cd) in P16. discriminate (P16 L16). }
  unfold demo_rules. repeat (apply Forall_cons; [apply G; vm_compute; auto; discriminate|]). apply Forall_nil.
Qed.

Lemma mapped_refuted : exists parseAddr line db a p,
  parse_ok parseAddr /\ newCidrDB parseAddr [line] = Some db /\ rule_of parseAddr line a p /\
  (exists ip, ip_ok ip /\ in_net a p ip /\ cidr_match db ip = Some None) /\
  (exists ip, ip_ok ip /\ ~ in_net a p ip /\ cidr_match db ip <> Some None).
Proof.
  exists demo_parse, "::ffff:1.2.3.0/120"%string.
  destruct (newCidrDB demo_parse ["::ffff:1.2.3.0/120"%string]) as [db|] eqn:E; [|vm_compute in E; discriminate].
  exists db, (v4prefix ++ [1;2;3;0]%N), (N.to_nat 120).
  split; [exact demo_parse_ok|]. split; [reflexivity|]. split.
  { split; [intros [B|(s & B)]; vm_compute in B; discriminate|].
    apply Den_net with (s := "::ffff:1.2.3.0"%string) (d := "120"%string); try reflexivity; [split; [discriminate|reflexivity]|vm_compute; discriminate]. }
  vm_compute in E. injection E as <-. split.
  - exists (v4prefix ++ [1;2;3;4]%N). split; [split; [repeat constructor|right; reflexivity]|]. split; [split; reflexivity|vm_compute; reflexivity].
  - exists [0;0;0;0]%N. split; [split; [repeat constructor|left; reflexivity]|]. split; [intros [L _]; discriminate L|]. vm_compute. discriminate.
Qed.

Lemma dotted_refuted : exists parseAddr line db a p,
  parse_ok parseAddr /\ newCidrDB parseAddr [line] = Some db /\ rule_of parseAddr line a p /\
  exists ip, ip_ok ip /\ ~ mapped ip /\ ~ in_net a p ip /\ cidr_match db ip <> Some None.
Proof.
  exists demo_parse, "64:ff9b::1.2.3.4"%string.
  destruct (newCidrDB demo_parse ["64:ff9b::1.2.3.4"%string]) as [db|] eqn:E; [|vm_compute in E; discriminate].
  exists db, ([0;100;255;155] ++ repeat 0 8 ++ [1;2;3;4])%list%N, 128.
  split; [exact demo_parse_ok|]. split; [reflexivity|]. split.
  { split; [intros [B|(s & B)]; vm_compute in B; discriminate|]. apply (Den_ip demo_parse "64:ff9b::1.2.3.4"%string); reflexivity. }
  vm_compute in E. injection E as <-.
  exists ([0;100;255;155] ++ repeat 0 8 ++ [9;9;9;9])%list%N. split; [split; [repeat constructor|right; reflexivity]|].
  split; [intros [_ M]; vm_compute in M; discriminate|]. split; [intros [_ L]; vm_compute in L; discriminate L|]. vm_compute. discriminate.
Qed.
