(** Lemmas about the list databases. *)
From Verif Require Import Base Base_proofs Bytes Dns Net Net_proofs Cidr_spec Cidr_proofs Net_spec Modifiers_spec Modifiers_proofs Lists_model Lists_spec.
Local Open Scope N_scope.

(** *** MAC addresses *)
Lemma hexval_lower c : hexval (lower_ascii c) = hexval c.
Proof. destruct c as [[] [] [] [] [] [] [] []]; reflexivity. Qed.
Lemma in16 n : n < 16 -> In n [0;1;2;3;4;5;6;7;8;9;10;11;12;13;14;15].
Proof. intros H. cbn [In]. lia. Qed.
Lemma hexval_digit n : n < 16 -> hexval (digit_of n) = Some n.
Proof. intros H. apply in16 in H. cbn [In] in H. repeat destruct H as [<-|H]; try reflexivity. destruct H. Qed.
Lemma hexval_some c n : hexval c = Some n -> n < 16 /\ lower_ascii c = digit_of n.
Proof.
  destruct c as [[] [] [] [] [] [] [] []]; intros H; try (vm_compute in H; discriminate H);
    vm_compute in H; injection H as <-; split; reflexivity.
Qed.
Lemma hexval_iff c n : n < 16 -> lower_ascii c = digit_of n -> hexval c = Some n.
Proof. intros H E. rewrite <- hexval_lower, E. exact (hexval_digit n H). Qed.
Lemma hexval_not_colon c n : hexval c = Some n -> Ascii.eqb c colon = false.
Proof. intros H. destruct (Ascii.eqb_spec c colon) as [->|]; [discriminate H|reflexivity]. Qed.
Lemma lower_colon c : lower_ascii c = colon -> c = colon.
Proof. destruct c as [[] [] [] [] [] [] [] []]; intros H; vm_compute in H; try discriminate H; reflexivity. Qed.
Lemma hex_length n : forall l r, (length l <= n)%nat -> hex_decode l = Some r -> length l = (2 * length r)%nat.
Proof.
  induction n; intros [|a [|b l]] r L H; cbn [hex_decode length] in *; try discriminate; try lia; try (injection H as <-; reflexivity).
  destruct (hexval a), (hexval b); try discriminate. destruct (hex_decode l) as [x|] eqn:E; [|discriminate]. injection H as <-.
  rewrite (IHn l x) by (try assumption; lia). cbn [length]. lia.
Qed.
Lemma filter_length_id {A} (f : A -> bool) l : length (filter f l) = length l -> filter f l = l /\ Forall (fun x => f x = true) l.
Proof.
  assert (K : forall l : list A, (length (filter f l) <= length l)%nat).
  { induction l0; cbn; [lia|]. destruct (f a); cbn; lia. }
  induction l as [|x l IH]; intros H; [split; [reflexivity|constructor]|].
  cbn [filter] in *. destruct (f x) eqn:E; cbn [length] in H.
  - destruct IH as [I F]; [lia|]. rewrite I. split; [reflexivity|]. constructor; assumption.
  - specialize (K l). lia.
Qed.
Lemma byte_digits b : b < 256 -> b / 16 < 16 /\ b mod 16 < 16 /\ b / 16 * 16 + b mod 16 = b.
Proof. intros H. assert (b = 16 * (b / 16) + b mod 16) by (apply N.div_mod; lia). assert (b mod 16 < 16) by (apply N.mod_lt; lia). lia. Qed.
Lemma digits_byte x y : x < 16 -> y < 16 -> x * 16 + y < 256 /\ (x * 16 + y) / 16 = x /\ (x * 16 + y) mod 16 = y.
Proof.
  intros H K. split; [lia|]. split.
  - symmetry. apply (N.div_unique _ 16 x y); lia.
  - symmetry. apply (N.mod_unique _ 16 x y); lia.
Qed.

Definition mac17 (a : list (ascii * ascii)) : list ascii :=
  match a with
  | [(a0, b0); (a1, b1); (a2, b2); (a3, b3); (a4, b4); (a5, b5)] =>
      [a0; b0; colon; a1; b1; colon; a2; b2; colon; a3; b3; colon; a4; b4; colon; a5; b5]
  | _ => []
  end.
Lemma octet_text_eq x y : x < 16 -> y < 16 -> octet_text (x * 16 + y) = String (digit_of x) (String (digit_of y) EmptyString).
Proof. intros H K. destruct (digits_byte x y H K) as (_ & E1 & E2). unfold octet_text. rewrite E1, E2. reflexivity. Qed.

Lemma parse_mac_some s m : parseMAC s = Some m -> is_mac s m.
Proof.
  unfold parseMAC. intros H. remember (list_ascii_of_string s) as b eqn:B.
  assert (S : s = string_of_list_ascii b) by (rewrite B; symmetry; apply string_of_list_ascii_of_string).
  clear B. destruct (Nat.eqb_spec (length b) 17) as [L|]; [|discriminate H]. cbn [negb] in H.
  do 17 (destruct b as [|?c b]; [discriminate L|]). destruct b; [|discriminate L]. clear L.
  destruct (forallb _ _) eqn:F in H; [|discriminate H]. cbn [negb] in H.
  cbn [seq forallb Nat.mul Nat.add nth] in F.
  repeat (apply andb_prop in F; destruct F as [?F F]). apply Ascii.eqb_eq in F0, F1, F2, F3, F4. subst c1 c4 c7 c10 c13. clear F.
  set (o := [c; c0; c2; c3; c5; c6; c8; c9; c11; c12; c14; c15]) in *.
  assert (E : filter (fun c => negb (Ascii.eqb c colon)) [c; c0; colon; c2; c3; colon; c5; c6; colon; c8; c9; colon; c11; c12; colon; c14; c15] =
              filter (fun c => negb (Ascii.eqb c colon)) o).
  { set (f := fun c => negb (Ascii.eqb c colon)).
    change [c; c0; colon; c2; c3; colon; c5; c6; colon; c8; c9; colon; c11; c12; colon; c14; c15] with
      ([c; c0] ++ [colon] ++ [c2; c3] ++ [colon] ++ [c5; c6] ++ [colon] ++ [c8; c9] ++ [colon] ++ [c11; c12] ++ [colon] ++ [c14; c15]).
    change o with ([c; c0] ++ [c2; c3] ++ [c5; c6] ++ [c8; c9] ++ [c11; c12] ++ [c14; c15]).
    rewrite !filter_app. change (filter f [colon]) with (@nil ascii). reflexivity. }
  rewrite E in H. clear E. destruct (hex_decode (filter _ o)) as [out|] eqn:D in H; [|discriminate H].
  destruct (Nat.eqb_spec (length out) 6) as [L6|]; [|discriminate H]. injection H as <-.
  pose proof (hex_length _ _ _ (le_n _) D) as L. rewrite L6 in L. change (2 * 6)%nat with (length o) in L.
  destruct (filter_length_id _ _ L) as [I _]. rewrite I in D. clear I L. subst o. cbn [hex_decode] in D.
  repeat match type of D with context [hexval ?x] => let n := fresh "n" in let E := fresh "E" in
    destruct (hexval x) as [n|] eqn:E; [apply hexval_some in E; destruct E as [? E]|try discriminate D] end.
  injection D as <-. split; [reflexivity|]. split.
  - repeat constructor; unfold byte_ok; lia.
  - rewrite S. cbn [string_of_list_ascii lower]. unfold mac_text. cbn [map]. rewrite !octet_text_eq by assumption. cbn [String.concat String.append].
    change (lower_ascii colon) with ":"%char.
    repeat match goal with E : lower_ascii _ = _ |- _ => rewrite E; clear E end. reflexivity.
Qed.
Lemma parse_mac_is s m : is_mac s m -> parseMAC s = Some m.
Proof.
  intros (L & B & E). do 6 (destruct m as [|?b m]; [discriminate L|]). destruct m; [|discriminate L]. clear L.
  unfold bytes_ok in B. repeat match goal with B : Forall _ (_ :: _) |- _ => inversion_clear B end. unfold byte_ok in *.
  repeat match goal with H : ?x < 256 |- _ => apply byte_digits in H; destruct H as (? & ? & ?) end.
  unfold mac_text in E. cbn [map String.concat octet_text String.append] in E. unfold octet_text in E. cbn [String.append] in E.
  do 17 (destruct s as [|?c s]; [discriminate E|]; cbn [lower] in E; injection E as ? E). destruct s; [|discriminate E]. clear E.
  repeat match goal with H : lower_ascii ?c = ":"%char |- _ => apply lower_colon in H; subst c end.
  repeat match goal with H : lower_ascii ?c = digit_of ?n |- _ => apply hexval_iff in H; [|assumption] end.
  unfold parseMAC. cbn [list_ascii_of_string length Nat.eqb negb seq forallb Nat.mul Nat.add nth].
  rewrite Ascii.eqb_refl. cbn [andb negb filter]. rewrite Ascii.eqb_refl. cbn [negb].
  repeat match goal with H : hexval ?c = Some _ |- context [Ascii.eqb ?c colon] => rewrite (hexval_not_colon _ _ H) end.
  cbn [negb hex_decode]. repeat match goal with H : hexval ?c = Some _ |- _ => rewrite H; clear H end.
  cbn [length Nat.eqb]. repeat match goal with H : _ = ?b |- _ => rewrite H; clear H end. reflexivity.
Qed.
Theorem parse_mac s m : parseMAC s = Some m <-> is_mac s m.
Proof. split; [apply parse_mac_some|apply parse_mac_is]. Qed.

Lemma no_rule_dec r : {trim_space r = EmptyString \/ exists s, trim_space r = ("#" ++ s)%string} +
  {~ (trim_space r = EmptyString \/ exists s, trim_space r = ("#" ++ s)%string)}.
Proof.
  destruct (trim_space r) as [|c s]; [left; left; reflexivity|].
  destruct (Ascii.eqb_spec c "#") as [->|N]; [left; right; exists s; reflexivity|].
  right. intros [H|[s' H]]; [discriminate|]. injection H as E _. exact (N E).
Qed.
Lemma prefix_hash s : has_prefix "#" s = true <-> exists t, s = ("#" ++ t)%string.
Proof.
  unfold has_prefix. destruct s as [|c s]; [split; [discriminate|intros [t H]; discriminate H]|].
  cbn [String.prefix]. destruct (ascii_dec "#" c) as [<-|N].
  - split; [intros _; exists s; reflexivity|]. intros _. destruct s; reflexivity.
  - split; [discriminate|]. intros [t H]. injection H as E _. congruence.
Qed.
Lemma blank_bool r : (has_prefix "#" (trim_space r) || String.eqb (trim_space r) "") = true <-> blank r.
Proof.
  unfold blank. rewrite orb_true_iff, prefix_hash, String.eqb_eq. tauto.
Qed.

(** A MAC list loads exactly if every rule is an address, and then has exactly these. *)
Theorem mac_load rules :
  (forall macs, newMACDB rules = Some macs ->
     forall m, In m macs <-> exists r, In r rules /\ ~ blank r /\ is_mac (trim_space r) m) /\
  (newMACDB rules <> None <-> forall r, In r rules -> ~ blank r -> exists m, is_mac (trim_space r) m).
Proof.
  induction rules as [|r rules [IH1 IH2]].
  - split; [intros macs H m; injection H as <-; split; [intros []|intros (r & [] & _)]|].
    split; [intros _ r []|discriminate].
  - cbn [newMACDB]. destruct (has_prefix "#" (trim_space r) || String.eqb (trim_space r) "") eqn:B.
    + apply blank_bool in B. split.
      * intros macs H m. rewrite (IH1 macs H m). split; intros (x & I & K).
        -- exists x. split; [right; exact I|exact K].
        -- destruct I as [<-|I]; [destruct K as [K _]; contradiction|]. exists x. split; assumption.
      * rewrite IH2. split; intros H x I; [|exact (H x (or_intror I))].
        destruct I as [<-|I]; [intros K; contradiction|exact (H x I)].
    + assert (NB : ~ blank r) by (intros K; apply blank_bool in K; rewrite K in B; discriminate B).
      destruct (parseMAC (trim_space r)) as [mac|] eqn:P.
      * apply parse_mac in P. assert (U : forall m, is_mac (trim_space r) m -> m = mac).
        { intros m M. apply parse_mac in M. apply parse_mac in P. rewrite P in M. injection M as <-. reflexivity. }
        destruct (newMACDB rules) as [l|].
        -- split.
           ++ intros macs H m. injection H as <-. split.
              ** intros [<-|I]; [exists r; split; [left; reflexivity|split; assumption]|].
                 apply (IH1 l eq_refl) in I. destruct I as (x & I & K). exists x. split; [right; exact I|exact K].
              ** intros (x & [<-|I] & N & M); [left; symmetry; exact (U m M)|]. right. apply (IH1 l eq_refl). exists x. split; [exact I|]. split; assumption.
           ++ split; [|discriminate]. intros _ x [<-|I] N; [exists mac; exact P|]. apply (proj1 IH2); [discriminate|exact I|exact N].
        -- split; [discriminate|]. split; [intros K; destruct (K eq_refl)|]. intros K. exfalso.
           apply (proj2 IH2); [|reflexivity]. intros x I. exact (K x (or_intror I)).
      * split; [discriminate|]. split; [intros K; destruct (K eq_refl)|]. intros K. exfalso.
        destruct (K r (or_introl eq_refl) NB) as [m M]. apply parse_mac in M. rewrite M in P. discriminate P.
Qed.

Lemma opt65001_app l l' : forall d, (forall o, In o l' -> forall m, ~ is_mac_option o m) ->
  fold_left (fun d o => match o with
                        | LOCAL code data => if negb (N.eqb code 65001) then d else if negb (Nat.eqb (length data) 6) then d else data
                        | _ => d
                        end) (l ++ l') d =
  fold_left (fun d o => match o with
                        | LOCAL code data => if negb (N.eqb code 65001) then d else if negb (Nat.eqb (length data) 6) then d else data
                        | _ => d
                        end) l d.
Proof.
  intros d H. rewrite fold_left_app. generalize (fold_left (fun d o => match o with
                        | LOCAL code data => if negb (N.eqb code 65001) then d else if negb (Nat.eqb (length data) 6) then d else data
                        | _ => d
                        end) l d). clear d.
  induction l' as [|o l' IH]; intros d; [reflexivity|]. cbn [fold_left]. rewrite IH by (intros x I; apply H; right; exact I).
  destruct o; try reflexivity. destruct (N.eqb_spec code 65001); [|reflexivity]. cbn [negb].
  destruct (Nat.eqb_spec (length data) 6); [|reflexivity]. cbn [negb]. exfalso. subst code. apply (H (LOCAL 65001 data) (or_introl eq_refl) data).
  split; [reflexivity|assumption].
Qed.
Lemma mac_option_dec o : {m | is_mac_option o m} + {forall m, ~ is_mac_option o m}.
Proof.
  destruct o; try (right; intros m [H _]; discriminate H).
  destruct (N.eq_dec code 65001) as [->|]; [|right; intros m [H _]; congruence].
  destruct (Nat.eq_dec (length data) 6); [left; exists data; split; [reflexivity|assumption]|right; intros m [H K]; injection H as <-; contradiction].
Qed.
Lemma opt65001_cases opts :
  (opt65001 opts = [] /\ forall o, In o opts -> forall m, ~ is_mac_option o m) \/
  (exists l o l', opts = l ++ o :: l' /\ is_mac_option o (opt65001 opts) /\ Forall (fun o => forall m, ~ is_mac_option o m) l').
Proof.
  unfold opt65001. induction opts as [|o l IH] using rev_ind; [left; split; [reflexivity|intros o []]|].
  destruct (mac_option_dec o) as [[m M]|N].
  - right. exists l, o, []. split; [reflexivity|]. split; [|constructor]. rewrite fold_left_app. cbn [fold_left].
    destruct M as [-> L]. rewrite N.eqb_refl, L. cbn [negb Nat.eqb]. split; [reflexivity|exact L].
  - rewrite opt65001_app by (intros x [<-|[]]; exact N). destruct IH as [[E H]|(a & x & b & -> & M & F)].
    + left. split; [exact E|]. intros x I. apply in_app_or in I. destruct I as [I|[<-|[]]]; [exact (H x I)|exact N].
    + right. exists a, x, (b ++ [o]). split; [rewrite <- app_assoc; reflexivity|]. split; [exact M|]. apply Forall_app. split; [exact F|]. constructor; [exact N|constructor].
Qed.
Lemma mac_option_last l o l' m k p k' : l ++ o :: l' = k ++ p :: k' -> is_mac_option o m -> Forall (fun o => forall m, ~ is_mac_option o m) l' ->
  (exists m, is_mac_option p m) -> Forall (fun o => forall m, ~ is_mac_option o m) k' -> o = p.
Proof.
  revert k. induction l as [|a l IH]; intros [|b k] E M F [n N] G; cbn [app] in E; injection E as E1 E2.
  - exact E1.
  - exfalso. subst l'. rewrite Forall_app in F. destruct F as [_ F]. inversion_clear F. exact (H n N).
  - exfalso. subst k'. rewrite Forall_app in G. destruct G as [_ G]. inversion_clear G. exact (H m M).
  - exact (IH k E2 M F (ex_intro _ n N) G).
Qed.
Theorem mac_match_spec name macs q : opt_wf q ->
  (forall m, client_mac q m -> In m macs -> mac_match name macs q = MRes [] [] (Some (name, hex_encode m)) true) /\
  (mr_ok (mac_match name macs q) = true -> exists m, client_mac q m /\ In m macs) /\
  (mr_ok (mac_match name macs q) = false -> mac_match name macs q = no_match).
Proof.
  intros W. unfold mac_match. destruct (is_edns0_cases q) as [[Nn E0]|(pre & r & post & H & E0 & _)]; rewrite E0.
  - split; [|split; [discriminate|reflexivity]]. intros m (p & x & po & _ & _ & _ & E & T & _) _. exfalso.
    unfold no_edns0 in Nn. rewrite E, Forall_app in Nn. destruct Nn as [_ Nn]. inversion_clear Nn. contradiction.
  - assert (D : exists o, rr_data r = DOPT o).
    { destruct H as (E & T & _). unfold opt_wf in W. rewrite E, Forall_app in W. destruct W as [_ W]. inversion_clear W. exact (H T). }
    destruct D as [opts D]. assert (U : forall m, client_mac q m -> opt65001 (opt_options r) = m /\ length m = 6%nat).
    { intros m (p & x & po & l & o & l' & Ex & T & F & Dx & M & G).
      assert (Hx : has_opt q p x po) by (split; [exact Ex|split; [exact T|exact F]]).
      destruct (has_opt_is _ _ _ _ Hx) as [I _]. rewrite E0 in I. injection I as ->. unfold opt_options. rewrite Dx.
      destruct M as [-> L]. split; [|exact L]. unfold opt65001.
      change (l ++ LOCAL 65001 m :: l') with (l ++ [LOCAL 65001 m] ++ l'). rewrite app_assoc, opt65001_app.
      - rewrite fold_left_app. cbn [fold_left]. rewrite N.eqb_refl, L. reflexivity.
      - intros o I. rewrite Forall_forall in G. exact (G o I). }
    split; [|split].
    + intros m M I. destruct (U m M) as [-> L]. rewrite L. cbn [Nat.eqb negb].
      destruct (find _ macs) as [mac|] eqn:Fi.
      * apply find_some in Fi. destruct Fi as [_ Fi]. unfold bytes_eqb in Fi. destruct (list_eq_dec N.eq_dec mac m) as [->|]; [reflexivity|discriminate].
      * apply (find_none _ _ Fi) in I. unfold bytes_eqb in I. destruct (list_eq_dec N.eq_dec m m); [discriminate|contradiction].
    + intros K. destruct (Nat.eqb_spec (length (opt65001 (opt_options r))) 6) as [L|]; [|discriminate K]. cbn [negb] in K.
      destruct (find _ macs) as [mac|] eqn:Fi; [|discriminate K]. apply find_some in Fi. destruct Fi as [I Fi].
      unfold bytes_eqb in Fi. destruct (list_eq_dec N.eq_dec mac _) as [->|]; [|discriminate].
      eexists. split; [|exact I]. destruct (opt65001_cases (opt_options r)) as [[E _]|(l & o & l' & E & M & G)].
      * rewrite E in L. discriminate L.
      * destruct H as (Ex & T & F). exists pre, r, post, l, o, l'. split; [exact Ex|]. split; [exact T|]. split; [exact F|].
        split; [unfold opt_options in E; rewrite D in *; rewrite E; reflexivity|]. split; assumption.
    + destruct (Nat.eqb _ 6); [|reflexivity]. cbn [negb]. destruct (find _ macs); [discriminate|reflexivity].
Qed.
Lemma hexdigit_is v : (v < 16)%N -> hex_digit v (hexdigit v).
Proof.
  intros H. assert (E : exists n, v = N.of_nat n /\ (n < 16)%nat) by (exists (N.to_nat v); lia). destruct E as (n & -> & L). clear H.
  unfold hex_digit. rewrite Nat2N.id. do 16 (destruct n as [|n]; [reflexivity|]). lia.
Qed.
Lemma hex_encode_is m : bytes_ok m -> hex_text m (hex_encode m).
Proof.
  induction 1 as [|b l B _ IH]; [constructor|]. unfold byte_ok in B. replace b with (16 * (b / 16) + b mod 16)%N at 1 by (symmetry; apply N.div_mod; discriminate).
  apply (hex_cons (b / 16) (b mod 16)); [apply hexdigit_is, N.div_lt_upper_bound; lia|apply hexdigit_is, N.mod_lt; discriminate|exact IH].
Qed.
Theorem mac_match_text name macs q : opt_wf q ->
  (forall m, client_mac q m -> In m macs -> bytes_ok m -> exists s, hex_text m s /\ mac_match name macs q = MRes [] [] (Some (name, s)) true) /\
  (mr_ok (mac_match name macs q) = true -> exists m, client_mac q m /\ In m macs) /\
  (mr_ok (mac_match name macs q) = false -> mac_match name macs q = no_match).
Proof.
  intros W. destruct (mac_match_spec name macs q W) as (A & B & C). split; [|auto]. intros m M I O. exists (hex_encode m). split; [apply hex_encode_is, O|exact (A m M I)].
Qed.
