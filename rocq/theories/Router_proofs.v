(** Lemmas about the router. *)
From Verif Require Import Base Base_proofs Bytes Dns Net Cidr_model Cidr_spec Cidr_proofs2 Cidr_proofs3 Net_spec Net_proofs Router_model Router_spec.
From Coq Require Import ZifyBool ZifyNat ZifyN.
Local Open Scope Z_scope.

(** *** Numbers *)
Lemma atoi_digits_from s : forall acc n, 0 <= acc -> (atoi_digits acc s = Some n <-> exists v, decimal_from (Z.to_N acc) s = Some v /\ n = Z.of_N v).
Proof.
  induction s as [|c s IH]; intros acc n Ha; cbn [atoi_digits decimal_from].
  - split; [intros H; injection H as <-; exists (Z.to_N acc); split; [reflexivity|lia]|intros (v & H & ->); injection H as <-; f_equal; lia].
  - unfold digit. cbv zeta. destruct (N.leb 48 (N_of_ascii c) && N.leb (N_of_ascii c) 57)%N; [|split; [discriminate|intros (v & H & _); discriminate]].
    rewrite IH by lia. replace (Z.to_N (acc * 10 + Z.of_N (N_of_ascii c - 48))) with (Z.to_N acc * 10 + (N_of_ascii c - 48))%N by lia. reflexivity.
Qed.
Lemma atoi_unsigned_dec s n : atoi_unsigned s = Some n <-> exists v, decimal s v /\ n = Z.of_N v.
Proof.
  unfold atoi_unsigned, decimal. destruct s as [|c s].
  - split; [discriminate|]. intros (v & [H _] & _). destruct H. reflexivity.
  - rewrite atoi_digits_from by lia. split; [intros (v & H & E); exists v; split; [split; [discriminate|exact H]|exact E]|intros (v & [_ H] & E); exists v; auto].
Qed.
Lemma decimal_head c s v : decimal (String c s) v -> c <> "+"%char /\ c <> "-"%char.
Proof. intros [_ H]. split; intros ->; cbn in H; discriminate. Qed.

Lemma atoi_signed s n : atoi s = Some n <-> signed s n /\ - 2^63 <= n < 2^63.
Proof.
  assert (R : match s with
           | EmptyString => None
           | String c s' => if Ascii.eqb c "-" then option_map Z.opp (atoi_unsigned s')
                            else if Ascii.eqb c "+" then atoi_unsigned s'
                            else atoi_unsigned s
           end = Some n <-> signed s n).
  { unfold signed. destruct s as [|c s].
    - split; [discriminate|]. intros (v & [[[H _] _]|[(d & H & _)|(d & H & _)]]); [destruct H; reflexivity|discriminate|discriminate].
    - destruct (Ascii.eqb_spec c "-") as [->|N1]; [|destruct (Ascii.eqb_spec c "+") as [->|N2]].
      + split.
        * destruct (atoi_unsigned s) as [k|] eqn:E; [|discriminate]. intros H. injection H as <-. apply atoi_unsigned_dec in E. destruct E as (v & D & ->).
          exists v. right. right. exists s. auto.
        * intros (v & [[D _]|[(d & H & _)|(d & H & D & ->)]]); [destruct (decimal_head _ _ _ D); congruence|discriminate|]. injection H as <-.
          assert (E : atoi_unsigned s = Some (Z.of_N v)) by (apply atoi_unsigned_dec; exists v; auto). rewrite E. reflexivity.
      + rewrite atoi_unsigned_dec. split.
        * intros (v & D & ->). exists v. right. left. exists s. auto.
        * intros (v & [[D _]|[(d & H & D & ->)|(d & H & _)]]); [destruct (decimal_head _ _ _ D); congruence| |discriminate]. injection H as <-. exists v. auto.
      + rewrite atoi_unsigned_dec. split.
        * intros (v & D & ->). exists v. left. auto.
        * intros (v & [[D ->]|[(d & H & _)|(d & H & _)]]); [exists v; auto|injection H as -> _; contradiction|injection H as -> _; contradiction]. }
  unfold atoi. cbv zeta. destruct (match s with EmptyString => None | String _ _ => _ end) as [v|].
  - destruct ((- 2 ^ 63 <=? v) && (v <? 2 ^ 63)) eqn:B.
    + split; [intros H; split; [apply R, H|injection H as <-; lia]|intros [H _]; apply R, H].
    + split; [discriminate|]. intros [H B']. apply R in H. injection H as ->. lia.
  - split; [discriminate|]. intros [H _]. apply R in H. discriminate.
Qed.
Lemma signed_fun s n n' : signed s n -> signed s n' -> -2^63 <= n < 2^63 -> -2^63 <= n' < 2^63 -> n = n'.
Proof. intros H H' B B'. assert (E : atoi s = Some n) by (apply atoi_signed; auto). assert (E' : atoi s = Some n') by (apply atoi_signed; auto). congruence. Qed.

(** *** Times *)
Lemma cut_colon_spec s :
  match cut_colon s with
  | (a, None) => a = s /\ contains ":" s = false
  | (a, Some b) => s = (a ++ String ":" b)%string /\ contains ":" a = false
  end.
Proof.
  induction s as [|c s IH]; [split; reflexivity|]. cbn [cut_colon]. destruct (Ascii.eqb c ":") eqn:E.
  - apply Ascii.eqb_eq in E. subst c. split; reflexivity.
  - destruct (cut_colon s) as [a [b|]]; destruct IH as [H1 H2]; cbn [contains]; rewrite E; cbn [orb].
    + split; [rewrite H1 at 1; reflexivity|exact H2].
    + subst a. split; [reflexivity|exact H2].
Qed.
Lemma contains_mid c a b : contains c (a ++ String c b)%string = true.
Proof. induction a as [|x a IH]; cbn [append contains]; [rewrite Ascii.eqb_refl; reflexivity|]. rewrite IH. apply orb_true_r. Qed.
Lemma app_char_inj c x : forall d x' d', (x ++ String c d)%string = (x' ++ String c d')%string -> contains c x = false -> contains c x' = false -> x = x' /\ d = d'.
Proof.
  induction x as [|y x IH]; intros d [|y' x'] d' E H H'; cbn [append contains] in *.
  - injection E as ->. auto.
  - injection E as -> _. rewrite Ascii.eqb_refl in H'. discriminate.
  - injection E as -> _. rewrite Ascii.eqb_refl in H. discriminate.
  - injection E as -> E. apply orb_false_iff in H. apply orb_false_iff in H'. destruct (IH _ _ _ E (proj2 H) (proj2 H')) as [-> ->]. auto.
Qed.

Lemma parse_time t h m : t <> EmptyString -> (parseTimeOfDay t = Some (Some (TimeOfDay h m)) <-> time_text t h m).
Proof.
  intros NE. unfold parseTimeOfDay, time_text. destruct (String.eqb_spec t "") as [E|_]; [contradiction|].
  pose proof (cut_colon_spec t) as C. destruct (cut_colon t) as [a [b|]]; destruct C as [C1 C2].
  - split.
    + destruct (atoi a) as [h'|] eqn:A; [|discriminate]. destruct ((h' <? 0) || (23 <? h')) eqn:B; [discriminate|].
      destruct (atoi b) as [m'|] eqn:A2; [|discriminate]. destruct ((m' <? 0) || (59 <? m')) eqn:B2; [discriminate|].
      intros H. injection H as -> ->. apply atoi_signed in A. apply atoi_signed in A2.
      split; [lia|]. split; [lia|]. right. exists a, b. tauto.
    + intros (Hh & Hm & [(N & _)|(a' & b' & E & N & S1 & S2)]).
      * rewrite C1, contains_mid in N. discriminate.
      * rewrite C1 in E. destruct (app_char_inj _ _ _ _ _ E C2 N) as [<- <-].
        rewrite (proj2 (atoi_signed a h)), (proj2 (atoi_signed b m)) by (split; [assumption|lia]).
        replace ((h <? 0) || (23 <? h)) with false by lia. replace ((m <? 0) || (59 <? m)) with false by lia. reflexivity.
  - subst a. split.
    + destruct (atoi t) as [h'|] eqn:A; [|discriminate]. destruct ((h' <? 0) || (23 <? h')) eqn:B; [discriminate|].
      intros H. injection H as -> <-. apply atoi_signed in A. split; [lia|]. split; [lia|]. left. tauto.
    + intros (Hh & Hm & [(N & S1 & ->)|(a' & b' & E & _)]).
      * rewrite (proj2 (atoi_signed t h)) by (split; [assumption|lia]). replace ((h <? 0) || (23 <? h)) with false by lia. reflexivity.
      * rewrite E, contains_mid in C2. discriminate.
Qed.
Lemma parse_time_nil t : parseTimeOfDay t = Some None <-> t = EmptyString.
Proof.
  unfold parseTimeOfDay. destruct (String.eqb_spec t "") as [E|NE]; [split; auto|]. split; [|contradiction].
  destruct (cut_colon t) as [a [b|]]; destruct (atoi a) as [h'|]; try discriminate; destruct ((h' <? 0) || (23 <? h')); try discriminate.
  destruct (atoi b) as [m'|]; try discriminate. destruct ((m' <? 0) || (59 <? m')); discriminate.
Qed.
Lemma time_fun t h m h' m' : time_text t h m -> time_text t h' m' -> h = h' /\ m = m'.
Proof.
  intros H H'. destruct (String.eqb_spec t "") as [->|NE].
  - exfalso. destruct H as (_ & _ & [(_ & S & _)|(a & b & E & _)]); [|destruct a; discriminate].
    assert (A : atoi "" = Some h \/ atoi "" = None) by (right; reflexivity). destruct S as (v & [[[N _] _]|[(d & E & _)|(d & E & _)]]); [destruct N; reflexivity|discriminate|discriminate].
  - apply (parse_time t h m NE) in H. apply (parse_time t h' m' NE) in H'. rewrite H in H'. injection H'. auto.
Qed.

Lemma before_ok h m hour minute : 0 <= m <= 59 -> 0 <= minute <= 59 -> (isAfter (TimeOfDay h m) hour minute = true <-> minutes hour minute < minutes h m).
Proof. unfold isAfter, minutes. cbn [tod_hour tod_minute]. lia. Qed.
Lemma after_ok h m hour minute : 0 <= m <= 59 -> 0 <= minute <= 59 -> (isBefore (TimeOfDay h m) hour minute = true <-> minutes h m <= minutes hour minute).
Proof. unfold isBefore, minutes. cbn [tod_hour tod_minute]. lia. Qed.

(** *** Names *)
Lemma lower_upper_ascii c : lower_ascii (upper_ascii c) = lower_ascii c /\ upper_ascii (lower_ascii c) = upper_ascii c.
Proof. destruct c as [[] [] [] [] [] [] [] []]; split; reflexivity. Qed.
Lemma lower_upper s : lower (upper s) = lower s.
Proof. induction s as [|c s IH]; [reflexivity|]. cbn [upper lower]. rewrite IH, (proj1 (lower_upper_ascii c)). reflexivity. Qed.
Lemma upper_lower s : upper (lower s) = upper s.
Proof. induction s as [|c s IH]; [reflexivity|]. cbn [upper lower]. rewrite IH, (proj2 (lower_upper_ascii c)). reflexivity. Qed.
Lemma upper_eq s u : upper (lower u) = u -> (upper s = u <-> lower s = lower u).
Proof. intros U. split; intros H; [rewrite <- H; symmetry; apply lower_upper|rewrite <- upper_lower, H; exact U]. Qed.

Lemma class_spec s c : stringToClass s = Some c -> (c = 0%N <-> s = EmptyString) /\ forall x, c <> 0%N -> (class_text s x <-> x = c).
Proof.
  unfold stringToClass, class_text. cbv zeta.
  assert (E0 : upper s = EmptyString <-> s = EmptyString) by (destruct s; cbn [upper]; split; congruence).
  pose proof (upper_eq s "IN" eq_refl) as U1. pose proof (upper_eq s "INET" eq_refl) as U2. pose proof (upper_eq s "CH" eq_refl) as U3.
  pose proof (upper_eq s "HS" eq_refl) as U4. pose proof (upper_eq s "NONE" eq_refl) as U5. pose proof (upper_eq s "ANY" eq_refl) as U6.
  cbn in U1, U2, U3, U4, U5, U6. 
  destruct (String.eqb_spec (upper s) "") as [K|K0]; [intros H; injection H as <-; split; [tauto|congruence]|].
  destruct (String.eqb_spec (upper s) "IN") as [K|K1]; [|destruct (String.eqb_spec (upper s) "INET") as [K|K2]]; cbn [orb];
    [| |destruct (String.eqb_spec (upper s) "CH") as [K|K3]; [|destruct (String.eqb_spec (upper s) "HS") as [K|K4];
      [|destruct (String.eqb_spec (upper s) "NONE") as [K|K5]; [|destruct (String.eqb_spec (upper s) "ANY") as [K|K6]; [|discriminate]]]]];
    intros H; injection H as <-; (split; [split; [discriminate|intros ->; discriminate K]|]); intros x _.
  - rewrite (proj1 U1 K). split; [intros [H|[H|[H|[H|[H|[H|[]]]]]]]; congruence|intros ->; left; reflexivity].
  - rewrite (proj1 U2 K). split; [intros [H|[H|[H|[H|[H|[H|[]]]]]]]; congruence|intros ->; right; left; reflexivity].
  - rewrite (proj1 U3 K). split; [intros [H|[H|[H|[H|[H|[H|[]]]]]]]; congruence|intros ->; do 2 right; left; reflexivity].
  - rewrite (proj1 U4 K). split; [intros [H|[H|[H|[H|[H|[H|[]]]]]]]; congruence|intros ->; do 3 right; left; reflexivity].
  - rewrite (proj1 U5 K). split; [intros [H|[H|[H|[H|[H|[H|[]]]]]]]; congruence|intros ->; do 4 right; left; reflexivity].
  - rewrite (proj1 U6 K). split; [intros [H|[H|[H|[H|[H|[H|[]]]]]]]; congruence|intros ->; do 5 right; left; reflexivity].
Qed.

Lemma weekday_spec s d : weekday_of s = Some d <-> day_text s d.
Proof.
  unfold weekday_of, day_text.
  destruct (String.eqb_spec s "mon") as [->|K1]; [cbn; split; [intros H; injection H as <-; tauto|intros H; repeat (destruct H as [H|H]; [injection H; congruence|]); destruct H]|].
  destruct (String.eqb_spec s "tue") as [->|K2]; [cbn; split; [intros H; injection H as <-; tauto|intros H; repeat (destruct H as [H|H]; [injection H; congruence|]); destruct H]|].
  destruct (String.eqb_spec s "wed") as [->|K3]; [cbn; split; [intros H; injection H as <-; tauto|intros H; repeat (destruct H as [H|H]; [injection H; congruence|]); destruct H]|].
  destruct (String.eqb_spec s "thu") as [->|K4]; [cbn; split; [intros H; injection H as <-; tauto|intros H; repeat (destruct H as [H|H]; [injection H; congruence|]); destruct H]|].
  destruct (String.eqb_spec s "fri") as [->|K5]; [cbn; split; [intros H; injection H as <-; tauto|intros H; repeat (destruct H as [H|H]; [injection H; congruence|]); destruct H]|].
  destruct (String.eqb_spec s "sat") as [->|K6]; [cbn; split; [intros H; injection H as <-; tauto|intros H; repeat (destruct H as [H|H]; [injection H; congruence|]); destruct H]|].
  destruct (String.eqb_spec s "sun") as [->|K7]; [cbn; split; [intros H; injection H as <-; tauto|intros H; repeat (destruct H as [H|H]; [injection H; congruence|]); destruct H]|].
  split; [discriminate|]. cbn. intros H. repeat (destruct H as [H|H]; [injection H; congruence|]). destruct H.
Qed.

Lemma all_some_spec {A B} (f : A -> option B) l : forall r, all_some f l = Some r -> Forall2 (fun x y => f x = Some y) l r.
Proof.
  induction l as [|x l IH]; intros r H; cbn [all_some] in H; [injection H as <-; constructor|].
  destruct (f x) as [y|] eqn:E; [|discriminate]. destruct (all_some f l) as [ys|]; [|discriminate]. injection H as <-. constructor; auto.
Qed.
Lemma forall2_exists {A B} (R : A -> B -> Prop) l r : Forall2 R l r -> forall y, In y r -> exists x, In x l /\ R x y.
Proof. induction 1 as [|x y l r H _ IH]; intros z I; [destruct I|]. destruct I as [<-|I]; [exists x; split; [left; reflexivity|exact H]|]. destruct (IH z I) as (x' & I' & H'). exists x'. split; [right; exact I'|exact H']. Qed.
Lemma forall2_in {A B} (R : A -> B -> Prop) l r : Forall2 R l r -> forall x, In x l -> exists y, In y r /\ R x y.
Proof. induction 1 as [|x y l r H _ IH]; intros z I; [destruct I|]. destruct I as [<-|I]; [exists y; split; [left; reflexivity|exact H]|]. destruct (IH z I) as (x' & I' & H'). exists x'. split; [right; exact I'|exact H']. Qed.

Lemma all_some_in {A} (f : A -> option N) l r v : all_some f l = Some r ->
  (match r with [] => true | _ => existsb (N.eqb v) r end = true <-> l = [] \/ exists x, In x l /\ f x = Some v).
Proof.
  intros H. apply all_some_spec in H. destruct r as [|y r].
  - inversion H; subst. split; [left; reflexivity|reflexivity].
  - rewrite existsb_exists. split.
    + intros (z & I & E). apply N.eqb_eq in E. subst z. right. exact (forall2_exists _ _ _ H v I).
    + intros [->|(x & I & E)]; [inversion H|]. destruct (forall2_in _ _ _ H x I) as (z & I' & E'). exists z. split; [exact I'|]. apply N.eqb_eq. congruence.
Qed.

(** *** Networks *)
Section Parse.
Variable parseAddr : string -> option bytes.
Hypothesis PO : parse_ok parseAddr.

Lemma parse_net_spec s n : parse_net parseAddr s = Some n -> exists a p, net_text parseAddr s a p /\ n = net_of a p /\ ip_ok a /\ (p <= 8 * length a)%nat.
Proof.
  unfold parse_net. destruct (parseCIDR parseAddr s) as [[ip c]|] eqn:E; [|discriminate]. intros H. injection H as <-. unfold parseCIDR in E.
  destruct (cut_slash s) as [[x d]|] eqn:C; [|discriminate]. apply cut_slash_some in C. destruct C as [-> C].
  destruct (parseAddr x) as [a|] eqn:A; [|discriminate]. destruct (dtoi d) as [v|] eqn:D; [|discriminate].
  destruct (N.leb_spec v (N.of_nat (8 * length a))) as [L|L]; [|discriminate]. injection E as _ <-. cbn [c_ip c_ones c_bits].
  exists a, (N.to_nat v). split; [exists x, d, v; split; [reflexivity|]; split; [exact C|]; split; [exact A|]; split; [apply dtoi_decimal1, D|]; split; [exact L|reflexivity]|].
  split; [|split; [exact (proj1 (PO _ _ A))|lia]]. unfold net_of. f_equal. f_equal.
  assert (X : Nat.div (8 * length a) 8 = length a) by (rewrite Nat.mul_comm; apply Nat.div_mul; discriminate). exact X.
Qed.
Lemma net_text_fun s a p a' p' : net_text parseAddr s a p -> net_text parseAddr s a' p' -> a = a' /\ p = p'.
Proof.
  intros (x & d & v & -> & C & A & D & L & ->) (x' & d' & v' & E & C' & A' & D' & L' & ->).
  destruct (app_char_inj _ _ _ _ _ E C C') as [<- <-]. rewrite A in A'. injection A' as <-. split; [reflexivity|].
  destruct D as [_ D], D' as [_ D']. congruence.
Qed.
Lemma has_net s n x : parse_net parseAddr s = Some n -> x = [] \/ ip_ok x ->
  (ipnet_contains n x = true <-> exists a p, net_text parseAddr s a p /\ x <> [] /\ net_has a p x).
Proof.
  intros H O. destruct (parse_net_spec _ _ H) as (a & p & T & -> & Oa & Hp). destruct O as [->|Ox].
  - rewrite contains_nil_net by exact Oa. split; [discriminate|]. intros (a' & p' & _ & N & _). destruct N. reflexivity.
  - rewrite contains_has by assumption. split.
    + intros Hh. exists a, p. split; [exact T|]. split; [|exact Hh]. intros ->. destruct Ox as [_ [L|L]]; discriminate L.
    + intros (a' & p' & T' & _ & Hh). destruct (net_text_fun _ _ _ _ _ T T') as [<- <-]. exact Hh.
Qed.
End Parse.

(** *** The client-subnet address *)
Lemma last_ecs_spec l : forall ip,
  (exists p o s f m sc, l = p ++ o :: s /\ o = ECS f m sc (fold_left (fun ip o => match o with ECS _ _ _ addr => addr | _ => ip end) l ip) /\ Forall (fun o => forall f m s a, o <> ECS f m s a) s) \/
  (Forall (fun o => forall f m s a, o <> ECS f m s a) l /\ fold_left (fun ip o => match o with ECS _ _ _ addr => addr | _ => ip end) l ip = ip).
Proof.
  induction l as [|o l IH]; intros ip; [right; split; [constructor|reflexivity]|]. cbn [fold_left].
  destruct (IH (match o with ECS _ _ _ addr => addr | _ => ip end)) as [(p & o' & s & f & m & sc & E & Eo & F)|[F E]].
  - left. exists (o :: p), o', s, f, m, sc. split; [rewrite E at 1; reflexivity|]. split; assumption.
  - destruct o as [f m sc a|d|c t|t|c d|c d].
    + left. exists [], (ECS f m sc a), l, f, m, sc. rewrite E. split; [reflexivity|]. split; [reflexivity|exact F].
    + right. split; [constructor; [discriminate|exact F]|exact E].
    + right. split; [constructor; [discriminate|exact F]|exact E].
    + right. split; [constructor; [discriminate|exact F]|exact E].
    + right. split; [constructor; [discriminate|exact F]|exact E].
    + right. split; [constructor; [discriminate|exact F]|exact E].
Qed.
Lemma split_last {A} (P : A -> Prop) p o s p' o' s' : p ++ o :: s = p' ++ o' :: s' -> P o -> P o' -> Forall (fun x => ~ P x) s -> Forall (fun x => ~ P x) s' -> o = o'.
Proof.
  revert p'. induction p as [|x p IH]; intros [|x' p'] E Ho Ho' F F'; cbn [app] in E; injection E as E1 E2.
  - exact E1.
  - subst. exfalso. assert (I : In o' (p' ++ o' :: s')) by (apply in_or_app; right; left; reflexivity). rewrite Forall_forall in F. exact (F _ I Ho').
  - subst. exfalso. assert (I : In o (p ++ o :: s)) by (apply in_or_app; right; left; reflexivity). rewrite Forall_forall in F'. exact (F' _ I Ho).
  - eapply IH; eassumption.
Qed.
Lemma find_opt_last l : 
  match find_opt l with
  | None => Forall (fun x => rr_type x <> 41%N) l
  | Some r => exists pre post, l = pre ++ r :: post /\ rr_type r = 41%N /\ Forall (fun x => rr_type x <> 41%N) post
  end.
Proof.
  induction l as [|x l IH]; cbn [find_opt]; [constructor|]. destruct (find_opt l) as [r|].
  - destruct IH as (pre & post & -> & T & F). exists (x :: pre), post. auto.
  - change TypeOPT with 41%N. destruct (N.eqb_spec (rr_type x) 41) as [T|T]; [exists [], l; auto|constructor; assumption].
Qed.
Lemma ecs_ip_spec q y : y <> [] -> (ecs_ip q = y <-> subnet_addr q y).
Proof.
  intros NY. unfold ecs_ip, is_edns0. pose proof (find_opt_last (m_extra q)) as H. destruct (find_opt (m_extra q)) as [r|].
  - destruct H as (pre & post & E & T & F). unfold last_ecs. split.
    + intros H. destruct (last_ecs_spec (opt_options r) []) as [(p & o & s & f & m & sc & El & Eo & Fs)|[_ Hn]]; [|congruence].
      rewrite H in Eo. unfold opt_options in El. destruct (rr_data r) eqn:D; try (destruct p; discriminate).
      exists pre, r, post, p, o, s. split; [exact E|]. split; [exact T|]. split; [exact F|]. split; [rewrite D, El; reflexivity|]. split; [exists f, m, sc; exact Eo|exact Fs].
    + intros (pre' & r' & post' & p & o & s & E' & T' & F' & D & (f & m & sc & ->) & Fs).
      rewrite E in E'. pose proof (split_last (fun x => rr_type x = 41%N) _ _ _ _ _ _ E' T T' F F') as <-.
      unfold opt_options. rewrite D. destruct (last_ecs_spec (p ++ ECS f m sc y :: s) []) as [(p1 & o1 & s1 & f1 & m1 & sc1 & El & Eo & Fs1)|[Hn _]].
      * assert (X : ECS f m sc y = o1).
        { apply (split_last (fun o => exists f m s a, o = ECS f m s a) _ _ _ _ _ _ El).
          - repeat eexists.
          - rewrite Eo. repeat eexists.
          - eapply Forall_impl; [|exact Fs]. intros z Hz (f2 & m2 & s2 & a2 & K). exact (Hz _ _ _ _ K).
          - eapply Forall_impl; [|exact Fs1]. intros z Hz (f2 & m2 & s2 & a2 & K). exact (Hz _ _ _ _ K). }
        rewrite <- X in Eo. injection Eo. intros K _ _ _. symmetry. exact K.
      * rewrite Forall_forall in Hn. exfalso. apply (Hn (ECS f m sc y)) with (f := f) (m := m) (s := sc) (a := y); [|reflexivity]. apply in_or_app. right. left. reflexivity.
  - split; [intros K; congruence|]. intros (pre' & r' & post' & _ & _ & _ & E' & T' & _). rewrite E' in H. apply Forall_app in H. destruct H as [_ H]. inversion H. contradiction.
Qed.

(** *** One route *)
Section Route.
Variable compile : string -> option (string -> bool).
Variable parseAddr : string -> option bytes.
Variable typeByName : string -> option N.
Hypothesis PO : parse_ok parseAddr.

Definition cfg_conditions (c : routecfg) (now : localtime) (x : question) (q : msg) (ci : client) : Prop :=
  conditions compile parseAddr typeByName (rc_types c) (rc_class c) (rc_name c) (rc_source c) (rc_ecs c) (rc_dohpath c) (rc_listener c) (rc_tls c)
    (rc_weekdays c) (rc_before c) (rc_after c) (lt_weekday now) (lt_hour now) (lt_minute now) x q ci.

Lemma net_cond s n ip : parse_net_opt parseAddr s = Some n -> ip = [] \/ ip_ok ip ->
  (match n with Some n => negb (ipnet_contains n ip) | None => false end = false <-> s = EmptyString \/ exists a p, net_text parseAddr s a p /\ ip <> [] /\ net_has a p ip).
Proof.
  unfold parse_net_opt. destruct (String.eqb_spec s "") as [->|NE].
  - intros H _. injection H as <-. tauto.
  - intros H O. destruct (parse_net parseAddr s) as [k|] eqn:E; [|discriminate]. injection H as <-.
    rewrite negb_false_iff, (has_net parseAddr PO s k ip E O). split; [auto|]. intros [K|K]; [contradiction|exact K].
Qed.
Lemma re_cond re f s : compile re = Some f -> (negb (f s) = false <-> matches compile re s).
Proof.
  intros E. rewrite negb_false_iff. unfold matches. split; [intros H; exists f; auto|]. intros (f' & E' & H). congruence.
Qed.

Lemma route_spec c r inv now q ci x l : newRoute compile parseAddr typeByName c = Some r -> m_question q = x :: l ->
  ci_ip ci = [] \/ ip_ok (ci_ip ci) -> (forall y, subnet_addr q y -> y = [] \/ ip_ok y) -> 0 <= lt_minute now <= 59 ->
  exists b, route_match (invert inv r) now q ci = Some b /\ (b = negb inv <-> cfg_conditions c now x q ci).
Proof.
  intros N Q OC OE TM. unfold newRoute in N.
  destruct (stringToType typeByName (rc_types c)) as [t|] eqn:E1; [|discriminate].
  destruct (stringsToWeekdays (rc_weekdays c)) as [w|] eqn:E2; [|discriminate].
  destruct (parseTimeOfDay (rc_before c)) as [b|] eqn:E3; [|discriminate].
  destruct (parseTimeOfDay (rc_after c)) as [a|] eqn:E4; [|discriminate].
  destruct (stringToClass (rc_class c)) as [cl|] eqn:E5; [|discriminate].
  destruct (compile (rc_name c)) as [re|] eqn:E6; [|discriminate].
  destruct (compile (rc_dohpath c)) as [re2|] eqn:E7; [|discriminate].
  destruct (compile (rc_listener c)) as [re3|] eqn:E8; [|discriminate].
  destruct (compile (rc_tls c)) as [re4|] eqn:E9; [|discriminate].
  destruct (parse_net_opt parseAddr (rc_source c)) as [sn|] eqn:E10; [|discriminate].
  destruct (parse_net_opt parseAddr (rc_ecs c)) as [en|] eqn:E11; [|discriminate]. injection N as <-.
  unfold route_match. rewrite Q. cbn [r_inverted invert r_types r_class r_name r_source r_ecs r_weekdays r_before r_after r_dohpath r_listener r_tls].
  eexists. split; [reflexivity|]. unfold cfg_conditions.
  assert (C1 : negb (matchType (invert inv (Route t cl re sn en w b a false re2 re3 re4 (rc_resolver c))) (q_type x)) = false <->
    (rc_types c = [] \/ exists t, In t (rc_types c) /\ typeByName (upper t) = Some (q_type x))).
  { rewrite negb_false_iff. unfold matchType. cbn [r_types invert]. pose proof (all_some_in _ _ _ (q_type x) E1) as K. destruct t; exact K. }
  assert (C2 : negb (cl =? 0)%N && negb (cl =? q_class x)%N = false <-> rc_class c = EmptyString \/ class_text (rc_class c) (q_class x)).
  { destruct (class_spec _ _ E5) as [K0 K1]. destruct (N.eqb_spec cl 0) as [Z|Z]; cbn [negb andb]; [tauto|].
    rewrite (K1 (q_class x) Z). destruct (N.eqb_spec cl (q_class x)) as [Z2|Z2]; cbn [negb]; split; intros H; try reflexivity; try discriminate; [right; congruence|].
    destruct H as [H|H]; [tauto|congruence]. }
  pose proof (re_cond _ _ (q_name x) E6) as C3. pose proof (net_cond _ _ _ E10 OC) as C4.
  assert (C5 : (match en with Some n => Nat.eqb (length (ecs_ip q)) 0 || negb (ipnet_contains n (ecs_ip q)) | None => false end = false) <->
    (rc_ecs c = EmptyString \/ exists a p y, net_text parseAddr (rc_ecs c) a p /\ subnet_addr q y /\ y <> [] /\ net_has a p y)).
  { assert (OI : ecs_ip q = [] \/ ip_ok (ecs_ip q)).
    { destruct (ecs_ip q) as [|z zs] eqn:Z; [left; reflexivity|]. apply OE, ecs_ip_spec; [discriminate|exact Z]. }
    pose proof (net_cond _ _ _ E11 OI) as K. destruct en as [n|].
    - rewrite orb_false_iff, K. split.
      + intros [_ [H|(a' & p & T & NN & Hh)]]; [left; exact H|]. right. exists a', p, (ecs_ip q). split; [exact T|]. split; [|split; assumption]. apply ecs_ip_spec; [exact NN|reflexivity].
      + intros [H|(a' & p & y & T & SA & NN & Hh)].
        * unfold parse_net_opt in E11. rewrite H in E11. discriminate.
        * apply (ecs_ip_spec q y NN) in SA. rewrite SA. split; [destruct y; [destruct NN; reflexivity|reflexivity]|]. right. exists a', p. auto.
    - split; [|reflexivity]. intros _. left. unfold parse_net_opt in E11. destruct (String.eqb_spec (rc_ecs c) ""); [assumption|]. destruct (parse_net parseAddr (rc_ecs c)); discriminate. }
  pose proof (re_cond _ _ (ci_dohpath ci) E7) as C6. pose proof (re_cond _ _ (ci_listener ci) E8) as C7. pose proof (re_cond _ _ (ci_tlsserver ci) E9) as C8.
  assert (C9 : (match w with [] => false | n :: l0 => negb (existsb (N.eqb (lt_weekday now)) (n :: l0)) end = false) <-> (rc_weekdays c = [] \/ exists d, In d (rc_weekdays c) /\ day_text d (lt_weekday now))).
  { pose proof (all_some_in _ _ _ (lt_weekday now) E2) as K. transitivity (match w with [] => true | _ => existsb (N.eqb (lt_weekday now)) w end = true).
    - destruct w; [split; reflexivity|]. apply negb_false_iff.
    - rewrite K. split; (intros [H|(d & I & H)]; [left; exact H|right; exists d; split; [exact I|]]); apply weekday_spec, H. }
  assert (C10 : (match b with Some t => negb (isAfter t (lt_hour now) (lt_minute now)) | None => false end = false) <->
    (rc_before c = EmptyString \/ exists h m, time_text (rc_before c) h m /\ minutes (lt_hour now) (lt_minute now) < minutes h m)).
  { destruct b as [[h m]|].
    - assert (NE : rc_before c <> EmptyString) by (intros Z; apply parse_time_nil in Z; congruence). apply (parse_time _ h m NE) in E3.
      assert (B := E3). destruct B as (_ & B & _). rewrite negb_false_iff, before_ok by assumption. split.
      + intros H. right. exists h, m. auto.
      + intros [Z|(h' & m' & T & H)]; [contradiction|]. destruct (time_fun _ _ _ _ _ E3 T) as [<- <-]. exact H.
    - split; [|reflexivity]. intros _. left. apply parse_time_nil. exact E3. }
  assert (C11 : (match a with Some t => negb (isBefore t (lt_hour now) (lt_minute now)) | None => false end = false) <->
    (rc_after c = EmptyString \/ exists h m, time_text (rc_after c) h m /\ minutes h m <= minutes (lt_hour now) (lt_minute now))).
  { destruct a as [[h m]|].
    - assert (NE : rc_after c <> EmptyString) by (intros Z; apply parse_time_nil in Z; congruence). apply (parse_time _ h m NE) in E4.
      assert (B := E4). destruct B as (_ & B & _). rewrite negb_false_iff, after_ok by assumption. split.
      + intros H. right. exists h, m. auto.
      + intros [Z|(h' & m' & T & H)]; [contradiction|]. destruct (time_fun _ _ _ _ _ E4 T) as [<- <-]. exact H.
    - split; [|reflexivity]. intros _. left. apply parse_time_nil. exact E4. }
  cbv zeta.
  assert (NI : inv <> negb inv) by (destruct inv; discriminate).
  lazymatch goal with |- context [if ?g then inv else _] => destruct g end; [split; [intros H; destruct (NI H)|intros H; destruct H as [H _ _ _ _ _ _ _ _ _ _]; apply C1 in H; discriminate]|].
  lazymatch goal with |- context [if ?g then inv else _] => destruct g end; [split; [intros H; destruct (NI H)|intros H; destruct H as [_ H _ _ _ _ _ _ _ _ _]; apply C2 in H; discriminate]|].
  lazymatch goal with |- context [if ?g then inv else _] => destruct g end; [split; [intros H; destruct (NI H)|intros H; destruct H as [_ _ H _ _ _ _ _ _ _ _]; apply C3 in H; discriminate]|].
  lazymatch goal with |- context [if ?g then inv else _] => destruct g end; [split; [intros H; destruct (NI H)|intros H; destruct H as [_ _ _ H _ _ _ _ _ _ _]; apply C4 in H; discriminate]|].
  lazymatch goal with |- context [if ?g then inv else _] => destruct g end; [split; [intros H; destruct (NI H)|intros H; destruct H as [_ _ _ _ H _ _ _ _ _ _]; apply C5 in H; discriminate]|].
  lazymatch goal with |- context [if ?g then inv else _] => destruct g end; [split; [intros H; destruct (NI H)|intros H; destruct H as [_ _ _ _ _ H _ _ _ _ _]; apply C6 in H; discriminate]|].
  lazymatch goal with |- context [if ?g then inv else _] => destruct g end; [split; [intros H; destruct (NI H)|intros H; destruct H as [_ _ _ _ _ _ H _ _ _ _]; apply C7 in H; discriminate]|].
  lazymatch goal with |- context [if ?g then inv else _] => destruct g end; [split; [intros H; destruct (NI H)|intros H; destruct H as [_ _ _ _ _ _ _ H _ _ _]; apply C8 in H; discriminate]|].
  lazymatch goal with |- context [if ?g then inv else _] => destruct g end; [split; [intros H; destruct (NI H)|intros H; destruct H as [_ _ _ _ _ _ _ _ H _ _]; apply C9 in H; discriminate]|].
  lazymatch goal with |- context [if ?g then inv else _] => destruct g end; [split; [intros H; destruct (NI H)|intros H; destruct H as [_ _ _ _ _ _ _ _ _ H _]; apply C10 in H; discriminate]|].
  lazymatch goal with |- context [if ?g then inv else _] => destruct g end; [split; [intros H; destruct (NI H)|intros H; destruct H as [_ _ _ _ _ _ _ _ _ _ H]; apply C11 in H; discriminate]|].
  split; [|reflexivity]. intros _. split; [apply C1|apply C2|apply C3|apply C4|apply C5|apply C6|apply C7|apply C8|apply C9|apply C10|apply C11]; reflexivity.
Qed.

(** *** The router *)
Variable resolve : nat -> msg -> client -> result.
Variable now : nat -> localtime.

Notation takes := (takes compile parseAddr typeByName now).
Lemma takes_cfg q ci x i e : takes q ci x i e =
  if re_invert e then ~ cfg_conditions (entry_cfg e) (now i) x q ci else cfg_conditions (entry_cfg e) (now i) x q ci.
Proof. unfold Router_spec.takes, cfg_conditions, entry_cfg. destruct (re_type e); reflexivity. Qed.

Lemma entry_match e r i q ci x l : option_map (invert (re_invert e)) (newRoute compile parseAddr typeByName (entry_cfg e)) = Some r -> m_question q = x :: l ->
  ci_ip ci = [] \/ ip_ok (ci_ip ci) -> (forall y, subnet_addr q y -> y = [] \/ ip_ok y) -> 0 <= lt_minute (now i) <= 59 ->
  exists b, route_match r (now i) q ci = Some b /\ (b = true <-> takes q ci x i e) /\ r_resolver r = rc_resolver (re_cfg e).
Proof.
  intros E Q OC OE TM. destruct (newRoute compile parseAddr typeByName (entry_cfg e)) as [r0|] eqn:N; [|discriminate]. injection E as <-.
  destruct (route_spec _ _ (re_invert e) (now i) q ci x l N Q OC OE TM) as (b & Hb & HC). exists b. split; [exact Hb|]. split.
  - rewrite takes_cfg. destruct (re_invert e); cbn [negb] in HC; destruct b; rewrite <- HC; split; congruence.
  - cbn [invert r_resolver]. unfold newRoute in N. repeat match type of N with match ?o with _ => _ end = _ => destruct o; [|discriminate] end. injection N as <-. reflexivity.
Qed.

Lemma router_spec entries routes q ci x l : instantiateRouter compile parseAddr typeByName entries = Some routes -> m_question q = x :: l ->
  ci_ip ci = [] \/ ip_ok (ci_ip ci) -> (forall y, subnet_addr q y -> y = [] \/ ip_ok y) -> (forall i, 0 <= lt_minute (now i) <= 59) ->
  (exists i e, nth_error entries i = Some e /\ takes q ci x i e /\ (forall j e', (j < i)%nat -> nth_error entries j = Some e' -> ~ takes q ci x j e') /\
     router_resolve resolve now routes q ci = Some ([(rc_resolver (re_cfg e), q)], resolve (rc_resolver (re_cfg e)) q ci)) \/
  ((forall j e', nth_error entries j = Some e' -> ~ takes q ci x j e') /\ exists s, router_resolve resolve now routes q ci = Some ([], Err s)).
Proof.
  intros I Q OC OE TM. unfold router_resolve. rewrite Q. apply all_some_spec in I.
  enough (G : forall k, (exists i e, nth_error entries i = Some e /\ takes q ci x (k + i) e /\ (forall j e', (j < i)%nat -> nth_error entries j = Some e' -> ~ takes q ci x (k + j) e') /\
     resolve_from resolve now k routes q ci = Some ([(rc_resolver (re_cfg e), q)], resolve (rc_resolver (re_cfg e)) q ci)) \/
    ((forall j e', nth_error entries j = Some e' -> ~ takes q ci x (k + j) e') /\ exists s, resolve_from resolve now k routes q ci = Some ([], Err s))) by exact (G O).
  induction I as [|e r entries routes E _ IH]; intros k; cbn [resolve_from].
  - right. split; [intros [|j] e'; discriminate|]. eexists. reflexivity.
  - destruct (entry_match e r k q ci x l E Q OC OE (TM k)) as (b & -> & HT & ->). destruct b.
    + left. exists O, e. rewrite Nat.add_0_r. split; [reflexivity|]. split; [apply HT; reflexivity|]. split; [intros j e' L; lia|reflexivity].
    + assert (NT : ~ takes q ci x k e) by (intros H; apply HT in H; discriminate).
      destruct (IH (S k)) as [(i & e1 & N1 & T1 & F1 & R1)|[F1 R1]].
      * left. exists (S i), e1. split; [exact N1|]. split; [rewrite Nat.add_succ_r; exact T1|]. split; [|exact R1].
        intros [|j] e' L N'; [injection N' as <-; rewrite Nat.add_0_r; exact NT|]. rewrite Nat.add_succ_r. apply (F1 j e'); [lia|exact N'].
      * right. split; [|exact R1]. intros [|j] e' N'; [injection N' as <-; rewrite Nat.add_0_r; exact NT|]. rewrite Nat.add_succ_r. apply (F1 j e'). exact N'.
Qed.
End Route.

(** Routes after the one taken make no difference. *)
Lemma router_prefix resolve now routes more q ci calls a : router_resolve resolve now routes q ci = Some (calls, a) -> calls <> [] ->
  router_resolve resolve now (routes ++ more) q ci = Some (calls, a).
Proof.
  unfold router_resolve. destruct (m_question q); [discriminate|]. generalize O as k. induction routes as [|r routes IH]; intros k H NE; cbn [resolve_from app] in *.
  - injection H as <- _. destruct NE. reflexivity.
  - destruct (route_match r (now k) q ci) as [[|]|]; [exact H| |discriminate]. apply IH; assumption.
Qed.

(** A window that ends before it starts is never open. *)
Lemma window h m h' m' hour minute : minutes h m <= minutes hour minute -> minutes hour minute < minutes h' m' -> minutes h m < minutes h' m'.
Proof. lia. Qed.
