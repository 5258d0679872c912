(** Proofs about the fields of OPT records and about whole scripts *)
From Verif Require Import Base Bytes Dns LuaVal_model LuaVal_proofs LuaRR_model LuaRR_spec LuaRR_proofs LuaMsg_model LuaMsg_spec LuaMsg_proofs LuaMsg_proofs2.
From Coq Require Import Lia.
Local Open Scope N_scope.

(** ** Bits of the TTL *)
Lemma ttl_bits ttl e v d r : ttl_is ttl e v d r -> ttl = N.lor (N.lor (N.lor (N.shiftl e 24) (N.shiftl v 16)) (if d then 2 ^ 15 else 0)) r.
Proof.
  intros (E & V & R & ->).
  assert (A : forall x y n, y < 2 ^ n -> N.lor (N.shiftl x n) y = x * 2 ^ n + y).
  { intros x y n L. rewrite <- N.lxor_lor.
    - rewrite <- N.add_nocarry_lxor; [rewrite N.shiftl_mul_pow2; reflexivity|].
      apply N.bits_inj. intros i. rewrite N.land_spec, N.bits_0. destruct (N.lt_ge_cases i n) as [H|H].
      + rewrite N.shiftl_spec_low by exact H. reflexivity.
      + rewrite <- (N.mod_small y (2 ^ n)) by exact L. rewrite N.mod_pow2_bits_high by exact H. apply andb_false_r.
    - apply N.bits_inj. intros i. rewrite N.land_spec, N.bits_0. destruct (N.lt_ge_cases i n) as [H|H].
      + rewrite N.shiftl_spec_low by exact H. reflexivity.
      + rewrite <- (N.mod_small y (2 ^ n)) by exact L. rewrite N.mod_pow2_bits_high by exact H. apply andb_false_r. }
  set (b := if d then 1 else 0). assert (B : b < 2) by (unfold b; destruct d; lia).
  replace (if d then 2 ^ 15 else 0) with (N.shiftl b 15) by (unfold b; destruct d; reflexivity).
  rewrite <- !N.lor_assoc. rewrite (A b r 15 R). change (2 ^ 15) with 32768 in *. change (2 ^ 16) with 65536 in *. change (2 ^ 24) with 16777216 in *. change (2 ^ 8) with 256 in *.
  rewrite (A v _ 16) by (change (2 ^ 16) with 65536; change (2 ^ 15) with 32768; lia). rewrite (A e _ 24) by (change (2 ^ 24) with 16777216; change (2 ^ 16) with 65536; change (2 ^ 15) with 32768; lia).
  change (2 ^ 15) with 32768. change (2 ^ 16) with 65536. change (2 ^ 24) with 16777216. rewrite N.shiftl_mul_pow2. change (2 ^ 15) with 32768. lia.
Qed.
Definition ttl_bit (e v : N) (d : bool) (r i : N) : bool :=
  if i <? 15 then N.testbit r i else if i =? 15 then d else if i <? 24 then N.testbit v (i - 16) else N.testbit e (i - 24).
Lemma small_high x n i : x < 2 ^ n -> n <= i -> N.testbit x i = false.
Proof. intros L H. rewrite <- (N.mod_small x (2 ^ n)) by exact L. apply N.mod_pow2_bits_high, H. Qed.
Lemma shift_bit x n i : N.testbit (N.shiftl x n) i = (n <=? i) && N.testbit x (i - n).
Proof. destruct (N.leb_spec n i) as [H|H]; [apply N.shiftl_spec_high; [apply N.le_0_l|exact H]|apply N.shiftl_spec_low; exact H]. Qed.
Lemma ones_bit n i : N.testbit (N.ones n) i = (i <? n).
Proof. destruct (N.ltb_spec i n) as [H|H]; [apply N.ones_spec_low, H|apply N.ones_spec_high, H]. Qed.
Lemma pow_bit n i : N.testbit (2 ^ n) i = (i =? n).
Proof. destruct (N.eqb_spec i n) as [->|H]; [apply N.pow2_bits_true|apply N.pow2_bits_false; congruence]. Qed.
Lemma form_bit e v (d : bool) r i : v < 2 ^ 8 -> r < 2 ^ 15 ->
  N.testbit (N.lor (N.lor (N.lor (N.shiftl e 24) (N.shiftl v 16)) (if d then 2 ^ 15 else 0)) r) i = ttl_bit e v d r i.
Proof.
  intros V R. rewrite !N.lor_spec, !shift_bit. unfold ttl_bit.
  assert (D : N.testbit (if d then 2 ^ 15 else 0) i = d && (i =? 15)) by (destruct d; [rewrite pow_bit; reflexivity|rewrite N.bits_0; reflexivity]). rewrite D.
  destruct (N.ltb_spec i 15) as [A|A].
  - destruct (N.leb_spec 24 i); [lia|]. destruct (N.leb_spec 16 i); [lia|]. destruct (N.eqb_spec i 15); [lia|]. cbn. rewrite andb_false_r. reflexivity.
  - rewrite (small_high r 15 i R A), orb_false_r. destruct (N.eqb_spec i 15) as [->|B]; [cbn; rewrite andb_true_r; reflexivity|]. rewrite andb_false_r, orb_false_r.
    destruct (N.ltb_spec i 24) as [C|C].
    + destruct (N.leb_spec 24 i); [lia|]. destruct (N.leb_spec 16 i); [reflexivity|lia].
    + destruct (N.leb_spec 24 i); [|lia]. rewrite (small_high v 8 (i - 16) V) by lia. rewrite andb_false_r, orb_false_r. reflexivity.
Qed.
Lemma ttl_iff ttl e v d r : e < 2 ^ 8 -> v < 2 ^ 8 -> r < 2 ^ 15 -> (ttl_is ttl e v d r <-> forall i, N.testbit ttl i = ttl_bit e v d r i).
Proof.
  intros E V R. split.
  - intros H i. rewrite (ttl_bits _ _ _ _ _ H). apply form_bit; assumption.
  - intros H. pose (t := e * 2 ^ 24 + v * 2 ^ 16 + (if d then 2 ^ 15 else 0) + r).
    assert (T : ttl_is t e v d r) by (split; [exact E|]; split; [exact V|]; split; [exact R|reflexivity]).
    assert (ttl = t); [|subst ttl; exact T]. apply N.bits_inj. intros i. rewrite H, (ttl_bits _ _ _ _ _ T). symmetry. apply form_bit; assumption.
Qed.
Lemma ttl_some ttl : ttl < 2 ^ 32 -> exists e v d r, ttl_is ttl e v d r.
Proof.
  intros L. exists (ttl / 2 ^ 24), ((ttl / 2 ^ 16) mod 2 ^ 8), (N.odd (ttl / 2 ^ 15)), (ttl mod 2 ^ 15).
  assert (E : ttl / 2 ^ 24 < 2 ^ 8) by (apply N.div_lt_upper_bound; [discriminate|exact L]).
  assert (V : (ttl / 2 ^ 16) mod 2 ^ 8 < 2 ^ 8) by (apply N.mod_lt; discriminate). assert (R : ttl mod 2 ^ 15 < 2 ^ 15) by (apply N.mod_lt; discriminate).
  apply ttl_iff; [assumption..|]. intros i. unfold ttl_bit. destruct (N.ltb_spec i 15) as [A|A]; [symmetry; apply N.mod_pow2_bits_low, A|].
  rewrite <- !N.shiftr_div_pow2. destruct (N.eqb_spec i 15) as [->|B]; [rewrite <- N.bit0_odd, N.shiftr_spec'; reflexivity|].
  destruct (N.ltb_spec i 24) as [C|C]; [rewrite N.mod_pow2_bits_low by lia|]; rewrite N.shiftr_spec'; f_equal; lia.
Qed.
Lemma ttl_bound ttl e v d r : ttl_is ttl e v d r -> ttl < 2 ^ 32.
Proof.
  intros (E & V & R & ->). change (2 ^ 8) with 256 in *. change (2 ^ 15) with 32768 in *. change (2 ^ 16) with 65536. change (2 ^ 24) with 16777216. change (2 ^ 32) with 4294967296. destruct d; lia.
Qed.
Ltac bits i := repeat match goal with
  | |- context [N.ltb i ?x] => destruct (N.ltb_spec i x); try lia
  | |- context [N.leb ?x i] => destruct (N.leb_spec x i); try lia
  | |- context [N.eqb i ?x] => destruct (N.eqb_spec i x); try lia
  end; cbn [andb orb negb]; rewrite ?andb_true_r, ?andb_false_r, ?orb_true_r, ?orb_false_r; try reflexivity.
Lemma read_do ttl e v d r : ttl_is ttl e v d r -> doBit ttl = d.
Proof.
  intros H. pose proof H as (E & V & R & _). pose proof (proj1 (ttl_iff ttl e v d r E V R) H 15) as B. unfold doBit.
  assert (L : N.land ttl (2 ^ 15) = if d then 2 ^ 15 else 0).
  { apply N.bits_inj. intros i. rewrite N.land_spec, pow_bit. destruct (N.eqb_spec i 15) as [->|D].
    - rewrite B. destruct d; reflexivity.
    - rewrite andb_false_r. destruct d; [rewrite pow_bit; symmetry; apply N.eqb_neq, D|symmetry; apply N.bits_0]. }
  rewrite L. destruct d; reflexivity.
Qed.
Lemma read_version ttl e v d r : ttl_is ttl e v d r -> version ttl = v.
Proof.
  intros H. pose proof H as (E & V & R & _). pose proof (proj1 (ttl_iff ttl e v d r E V R) H) as B. unfold version. apply N.bits_inj. intros i.
  change 16711680 with (N.shiftl (N.ones 8) 16). rewrite N.shiftr_spec', N.land_spec, shift_bit, ones_bit, B. unfold ttl_bit. replace (i + 16 - 16) with i by lia.
  destruct (N.ltb_spec (i + 16) 15); [lia|]. destruct (N.eqb_spec (i + 16) 15); [lia|]. destruct (N.leb_spec 16 (i + 16)); [|lia].
  destruct (N.ltb_spec (i + 16) 24), (N.ltb_spec i 8); try lia. rewrite andb_false_r. symmetry. apply (small_high v 8); assumption.
Qed.
Lemma read_ext ttl e v d r : ttl_is ttl e v d r -> extendedRcode ttl = e * 2 ^ 4.
Proof.
  intros H. pose proof H as (E & V & R & _). pose proof (proj1 (ttl_iff ttl e v d r E V R) H) as B. unfold extendedRcode. rewrite N.shiftl_mul_pow2. f_equal.
  apply N.bits_inj. intros i.
  change 4278190080 with (N.shiftl (N.ones 8) 24). rewrite N.shiftr_spec', N.land_spec, shift_bit, ones_bit, B. unfold ttl_bit. replace (i + 24 - 24) with i by lia.
  destruct (N.ltb_spec (i + 24) 15); [lia|]. destruct (N.eqb_spec (i + 24) 15); [lia|]. destruct (N.leb_spec 24 (i + 24)); [|lia]. destruct (N.ltb_spec (i + 24) 24); [lia|].
  destruct (N.ltb_spec i 8); cbn [andb]; [apply andb_true_r|]. rewrite andb_false_r. symmetry. apply (small_high e 8); assumption.
Qed.
Lemma write_do ttl e v d r (b : bool) : ttl_is ttl e v d r -> ttl_is (if b then setDo ttl else clearDo ttl) e v b r.
Proof.
  intros H. pose proof H as (E & V & R & _). pose proof (proj1 (ttl_iff ttl e v d r E V R) H) as B. apply ttl_iff; [assumption..|]. intros i.
  unfold setDo, clearDo. destruct b; [rewrite N.lor_spec|rewrite N.ldiff_spec]; rewrite pow_bit, B; unfold ttl_bit; bits i.
Qed.
Lemma write_version ttl e v d r n : n < 2 ^ 8 -> ttl_is ttl e v d r -> ttl_is (setVersion n ttl) e n d r.
Proof.
  intros L H. pose proof H as (E & V & R & _). pose proof (proj1 (ttl_iff ttl e v d r E V R) H) as B. apply ttl_iff; [assumption..|]. intros i.
  unfold setVersion. change 4278255615 with (N.lor (N.ones 16) (N.shiftl (N.ones 8) 24)).
  rewrite N.lor_spec, N.land_spec, N.lor_spec, !shift_bit, !ones_bit, B. unfold ttl_bit.
  destruct (N.ltb_spec (i - 24) 8) as [W|W]; bits i.
  all: rewrite (small_high n 8 (i - 16) L) by lia; rewrite ?orb_false_r; try reflexivity. symmetry. apply (small_high e 8); assumption.
Qed.
Lemma write_ext ttl e v d r n : ttl_is ttl e v d r -> ttl_is (setExtendedRcode n ttl) ((n / 2 ^ 4) mod 2 ^ 8) v d r.
Proof.
  intros H. pose proof H as (E & V & R & _). pose proof (proj1 (ttl_iff ttl e v d r E V R) H) as B.
  apply ttl_iff; [apply N.mod_lt; discriminate|assumption..|]. intros i.
  unfold setExtendedRcode. change 16777215 with (N.ones 24). rewrite N.lor_spec, N.land_spec, ones_bit, B. rewrite <- N.shiftr_div_pow2. unfold ttl_bit.
  destruct (N.lt_ge_cases i 32) as [W|W].
  - rewrite (N.mod_pow2_bits_low _ 32 i W), shift_bit. bits i. rewrite N.mod_pow2_bits_low by lia. reflexivity.
  - rewrite (N.mod_pow2_bits_high _ 32 i W). bits i. rewrite N.mod_pow2_bits_high by lia. reflexivity.
Qed.

(** ** OPT records *)
Lemma opt_iff r : isOPT r = true <-> is_opt r.
Proof.
  unfold isOPT, is_opt. split; [|intros ->; reflexivity].
  destruct (rr_type r) as [|[|n k|fs] [|[|n' k'|fs'] [|f t]]]; try discriminate; try (destruct k'; discriminate).
  destruct k'; try discriminate. intros H. apply String.eqb_eq in H. subst. reflexivity.
Qed.
Lemma opt_view r : record_ok r -> is_opt r -> exists v, opt_is r v.
Proof.
  intros (_ & M & _ & _ & T & _) O. destruct (ttl_some _ T) as (e & v & d & x & D). unfold is_opt in O.
  destruct M as [M|(fs & vs & E & _)]; [|rewrite O in E; discriminate]. rewrite O in M.
  destruct (rr_vals r) as [|v0 [|v1 [|v2 vs]]] eqn:EV; inversion M as [|? ? ? ? M0 M1]; subst; try solve [inversion M1 as [|? ? ? ? M2 M3]; subst; inversion M3].
  inversion M1 as [|? ? ? ? M2 M3]; subst. destruct v1; try contradiction. exists (View (h_class (rr_hdr r)) e v d x l).
  split; [exact O|]. split; [reflexivity|]. split; [exact D|exact EV].
Qed.
Lemma opt_ok r v : opt_is r v -> ov_size v < 2 ^ 16 -> h_type (rr_hdr r) < 2 ^ 16 -> h_rdlen (rr_hdr r) < 2 ^ 16 -> record_ok r.
Proof.
  intros (O & C & T & V) S Y L. unfold is_opt in O. split; [|split].
  - left. rewrite O. split; [repeat constructor|]. split; [cbn; constructor; [intros []|constructor]|].
    cbn. intros n [<-|[]] H. repeat (destruct H as [H|H]; [discriminate|]). contradiction.
  - left. rewrite O, V. constructor; [reflexivity|]. constructor; [exact I|constructor].
  - split; [exact Y|]. split; [rewrite C; exact S|]. split; [eapply ttl_bound, T|exact L].
Qed.
Lemma opt_read r v : record_ok r -> opt_is r v ->
  (exists x, getOPT r "udp_size" = Some (LNum x) /\ denotes x (Z.of_N (ov_size v))) /\ getOPT r "do_bit" = Some (LBool (ov_do v)) /\
  (exists x, getOPT r "version" = Some (LNum x) /\ denotes x (Z.of_N (ov_version v))) /\
  (exists x, getOPT r "extended_rcode" = Some (LNum x) /\ denotes x (Z.of_N (ov_ext v * 2 ^ 4 mod 2 ^ 8))) /\
  getOPT r "option" = Some (LTab (map (fun o => LUser (ROption o)) (ov_options v))) /\
  getOPT r "name" = Some (LStr (h_name (rr_hdr r))) /\ (exists x, getOPT r "rtype" = Some (LNum x) /\ denotes x (Z.of_N (h_type (rr_hdr r)))) /\
  forall name, ~ In name ["udp_size"; "do_bit"; "version"; "extended_rcode"; "option"; "name"; "rtype"]%string -> getOPT r name = None.
Proof.
  intros (_ & _ & Y & C & _) (O & S & T & V). apply opt_iff in O.
  assert (G : forall name, getOPT r name = getOPT r name) by reflexivity. unfold getOPT. rewrite O. cbn [negb String.eqb Ascii.eqb Bool.eqb].
  rewrite (read_do _ _ _ _ _ T), (read_version _ _ _ _ _ T), (read_ext _ _ _ _ _ T), V, S. pose proof T as (_ & VB & _).
  split; [eexists; split; [reflexivity|apply (of_uint_small _ 16); [lia|rewrite <- S; exact C]]|]. split; [reflexivity|].
  split; [eexists; split; [reflexivity|apply (of_uint_small _ 8); [lia|exact VB]]|].
  split; [eexists; split; [reflexivity|apply (of_uint_small _ 8); [lia|apply N.mod_lt; discriminate]]|].
  split; [reflexivity|]. split; [reflexivity|]. split; [eexists; split; [reflexivity|apply (of_uint_small _ 16); [lia|exact Y]]|].
  intros name N. repeat match goal with |- context [String.eqb name ?x] => destruct (String.eqb_spec name x) as [->|_]; [exfalso; apply N; cbn; tauto|] end. reflexivity.
Qed.

Section Lua.
Variable far : N -> num -> N.
Variable parseNumber : string -> option num.
Variable numberText : num -> string.
Notation checkNumber := (checkNumber parseNumber).

Lemma opt_write r view name v r' : opt_is r view -> setOPT far parseNumber r name v = (r', true) ->
  exists view', opt_is r' view' /\ opt_assigned parseNumber name v view view' /\ (ov_size view < 2 ^ 16 -> ov_size view' < 2 ^ 16) /\
    h_name (rr_hdr r') = h_name (rr_hdr r) /\ h_type (rr_hdr r') = h_type (rr_hdr r) /\ h_rdlen (rr_hdr r') = h_rdlen (rr_hdr r).
Proof.
  intros (O & S & T & V). pose proof (proj2 (opt_iff r) O) as O'. destruct view as [size ext ver d rest opts]. cbn in S, T, V. unfold setOPT. rewrite O'. cbv zeta. cbn [negb].
  destruct (String.eqb_spec name "udp_size") as [->|_].
  { destruct (checkNumber v) as [x|] eqn:E; [|discriminate]. intros [= <-]. exists (View (uint far 16 x) ext ver d rest opts).
    split; [split; [exact O|]; split; [reflexivity|]; split; [exact T|exact V]|]. split; [|split; [intros _; apply uint_bound|auto]].
    econstructor; [apply number_iff, E|apply uint_stores]. }
  destruct (String.eqb_spec name "do_bit") as [->|_].
  { destruct v; try discriminate. cbn [checkBool]. intros [= <-]. exists (View size ext ver b rest opts).
    split; [split; [exact O|]; split; [exact S|]; split; [|exact V]|split; [constructor|auto]]. cbn. exact (write_do _ _ _ _ _ b T). }
  destruct (String.eqb_spec name "version") as [->|_].
  { destruct (checkNumber v) as [x|] eqn:E; [|discriminate]. intros [= <-]. exists (View size ext (uint far 8 x) d rest opts).
    split; [split; [exact O|]; split; [exact S|]; split; [|exact V]|split; [econstructor; [apply number_iff, E|apply uint_stores]|auto]].
    cbn. apply write_version with (v := ver); [apply uint_bound|exact T]. }
  destruct (String.eqb_spec name "extended_rcode") as [->|_].
  { destruct (checkNumber v) as [x|] eqn:E; [|discriminate]. intros [= <-]. exists (View size ((uint far 16 x / 2 ^ 4) mod 2 ^ 8) ver d rest opts).
    split; [split; [exact O|]; split; [exact S|]; split; [|exact V]|split; [econstructor; [apply number_iff, E|apply uint_stores]|auto]].
    apply write_ext with (e := ext). exact T. }
  destruct (String.eqb_spec name "option") as [->|_]; [|discriminate].
  destruct v as [| | | |l| |]; try discriminate. destruct (options l) as [os|] eqn:E; [|discriminate]. intros [= <-]. exists (View size ext ver d rest os).
  split; [split; [exact O|]; split; [exact S|]; split; [exact T|reflexivity]|]. rewrite (options_map l os E). split; [constructor|auto].
Qed.
Lemma opt_accepts r name v : is_opt r -> (snd (setOPT far parseNumber r name v) = true <-> opt_takes parseNumber name v).
Proof.
  intros O. pose proof (proj2 (opt_iff r) O) as O'. unfold setOPT. rewrite O'. cbv zeta. cbn [negb]. split.
  - destruct (String.eqb_spec name "udp_size") as [->|_]; [destruct (checkNumber v) as [x|] eqn:E; [intros _; eapply takes_size, number_iff, E|discriminate]|].
    destruct (String.eqb_spec name "do_bit") as [->|_]; [destruct v; try discriminate; intros _; constructor|].
    destruct (String.eqb_spec name "version") as [->|_]; [destruct (checkNumber v) as [x|] eqn:E; [intros _; eapply takes_version, number_iff, E|discriminate]|].
    destruct (String.eqb_spec name "extended_rcode") as [->|_]; [destruct (checkNumber v) as [x|] eqn:E; [intros _; eapply takes_ext, number_iff, E|discriminate]|].
    destruct (String.eqb_spec name "option") as [->|_]; [|discriminate]. destruct v as [| | | |l| |]; try discriminate.
    destruct (options l) as [os|] eqn:E; [|discriminate]. intros _. constructor. apply options_iff. eauto.
  - intros H. destruct H as [v x N|b|v x N|v x N|l H]; cbn [String.eqb Ascii.eqb Bool.eqb]; try (apply number_iff in N; rewrite N; reflexivity); [reflexivity|].
    apply options_iff in H. destruct H as (os & ->). reflexivity.
Qed.
Lemma opt_refused r name v r' : setOPT far parseNumber r name v = (r', false) -> r' = r.
Proof.
  unfold setOPT. cbv zeta. destruct (negb (isOPT r)); [congruence|].
  repeat match goal with |- context [String.eqb name ?x] => destruct (String.eqb name x) end; try (destruct (checkNumber v); congruence); try (destruct (checkBool v); congruence); try congruence.
  destruct v; try congruence. destruct (options l); congruence.
Qed.
Lemma opt_new args r : newOPT far parseNumber args = Some r ->
  exists n b, opt_is r (View n 0 0 b 0 []) /\ h_name (rr_hdr r) = "."%string /\ h_type (rr_hdr r) = 41 /\ h_rdlen (rr_hdr r) = 0 /\ n < 2 ^ 16 /\
    match args with v :: _ => exists x, number_of parseNumber v x /\ stores 16 x n | [] => n = 0 end /\ match args with _ :: v :: _ => v = LBool b | _ => b = false end.
Proof.
  assert (V : forall n (b : bool), opt_is (RR (Hdr "." 41 n (if b then setDo 0 else 0) 0) optType [VHdr; VEdns []]) (View n 0 0 b 0 [])).
  { intros n b. split; [reflexivity|]. split; [reflexivity|]. split; [|reflexivity]. destruct b; repeat split. }
  unfold newOPT. intros H. destruct args as [|v [|w rest]]; cbn [option_map] in H.
  - injection H as <-. exists 0, false. split; [apply (V 0 false)|]. repeat split.
  - destruct (checkNumber v) as [x|] eqn:E; [|discriminate]. injection H as <-. exists (uint far 16 x), false. split; [apply (V _ false)|].
    split; [reflexivity|]. split; [reflexivity|]. split; [reflexivity|]. split; [apply uint_bound|]. split; [|reflexivity]. exists x. split; [apply number_iff, E|apply uint_stores].
  - destruct (checkNumber v) as [x|] eqn:E; [|discriminate]. destruct w; try discriminate. injection H as <-. exists (uint far 16 x), b. split; [apply V|].
    split; [reflexivity|]. split; [reflexivity|]. split; [reflexivity|]. split; [apply uint_bound|]. split; [|reflexivity]. exists x. split; [apply number_iff, E|apply uint_stores].
Qed.
End Lua.
