From Coq Require Import Lia ZifyBool ZifyN ZifyNat Permutation.
From Verif Require Import Base Bytes Net LuaVal_model LuaRR_model LuaRR_spec LuaVal_proofs LuaRR_proofs.
Local Open Scope nat_scope.

Section Props.
Variable far : N -> num -> N.
Variable ipString : bytes -> string.
Variable parseIP : string -> option bytes.
Notation getField := (getField ipString).
Notation setField := (setField far parseIP).
Notation get := (get ipString).
Notation set := (set far parseIP).
Notation newindex := (newindex far parseIP).

(** ** Writing what was read *)
Lemma uint_of_uint w n : (w <= 64)%N -> (n < 2 ^ w)%N -> (n <= 2 ^ 53)%N -> uint far w (of_uint n) = n.
Proof.
  intros W B L. rewrite (uint_exact far w _ (Z.of_N n) (of_uint_exact n L)).
  - apply N2Z.id.
  - split; [lia|]. apply N2Z.inj_lt in B. rewrite N2Z.inj_pow in B. exact B.
Qed.
Lemma uint_cut_of w n : (w <= 32)%N -> (n < 2 ^ w)%N -> (uint far 64 (of_uint n) mod 2 ^ w)%N = n.
Proof.
  intros W B. assert ((2 ^ w <= 2 ^ 32)%N) by (apply N.pow_le_mono_r; lia). assert ((2 ^ 32 <= 2 ^ 53)%N) by (apply N.pow_le_mono_r; lia).
  assert ((2 ^ 53 <= 2 ^ 64)%N) by (apply N.pow_le_mono_r; lia). rewrite (uint_of_uint 64 n); [apply N.mod_small, B|lia|lia|lia].
Qed.
Lemma strings_of l : strings (map LStr l) = Some l.
Proof. induction l as [|s l IH]; [reflexivity|]. cbn. rewrite IH. reflexivity. Qed.
Lemma options_of l : options (map (fun a => LUser (ROption a)) l) = Some l.
Proof. induction l as [|s l IH]; [reflexivity|]. cbn. rewrite IH. reflexivity. Qed.
Lemma numbers_of l : Forall (fun n => (n < 2 ^ 16)%N) l -> numbers far 16 (map (fun n => LNum (of_uint n)) l) = Some l.
Proof.
  induction 1 as [|n l B F IH]; [reflexivity|]. cbn [map numbers]. rewrite IH. cbn [option_map].
  assert ((2 ^ 16 <= 2 ^ 53)%N) by (apply N.pow_le_mono_r; lia). rewrite (uint_of_uint 16 n) by lia. reflexivity.
Qed.
Lemma field_self k x v : ip_text ipString parseIP -> typed k x -> lossless x -> getField k x = Some v -> exists x', setField k v = Some x' /\ same_value x x'.
Proof.
  intros IP T L G. destruct k, x; try contradiction; cbn [LuaRR_model.getField] in G; try discriminate; cbn [typed lossless] in T, L.
  - destruct ip as [ip|]; injection G as <-.
    + destruct (IP ip (proj1 L) (proj2 L)) as (ip' & P & S). cbn. rewrite P. eexists; split; [reflexivity|]. right. eauto 6.
    + eexists; split; [reflexivity|left; reflexivity].
  - injection G as <-. eexists; split; [reflexivity|left; reflexivity].
  - assert (v = LNum (of_uint n)) by congruence. subst v. cbn [LuaRR_model.setField]. rewrite uint_cut_of by (assumption || lia). eexists; split; [reflexivity|left; reflexivity].
  - assert (v = LNum (of_uint n)) by congruence. subst v. cbn [LuaRR_model.setField]. rewrite uint_cut_of by (assumption || lia). eexists; split; [reflexivity|left; reflexivity].
  - assert (v = LNum (of_uint n)) by congruence. subst v. cbn [LuaRR_model.setField]. rewrite uint_cut_of by (assumption || lia). eexists; split; [reflexivity|left; reflexivity].
  - assert (v = LNum (of_uint n)) by congruence. subst v. cbn [LuaRR_model.setField]. rewrite uint_of_uint by (assumption || lia). eexists; split; [reflexivity|left; reflexivity].
  - injection G as <-. cbn [LuaRR_model.setField]. rewrite numbers_of by exact T. eexists; split; [reflexivity|left; reflexivity].
  - injection G as <-. cbn [LuaRR_model.setField]. rewrite strings_of. eexists; split; [reflexivity|left; reflexivity].
  - injection G as <-. cbn [LuaRR_model.setField]. rewrite options_of. eexists; split; [reflexivity|left; reflexivity].
Qed.
Lemma same_fields l : Forall2 (fun f f' : string * kind * fval => fst f = fst f' /\ same_value (snd f) (snd f')) l l.
Proof. induction l; constructor; [split; [reflexivity|left; reflexivity]|assumption]. Qed.
Lemma self r name v : ip_text ipString parseIP -> record_ok r -> get r name = Some v -> name <> "rtype"%string -> name <> "rdlength"%string ->
  (forall g k x, In (g, k, x) (fields r) -> lower g = name -> lossless x) -> exists r', newindex r name v = (r', true) /\ same_record r r'.
Proof.
  intros IP OK G N1 N2 L. pose proof OK as (_ & _ & _ & B & C & _). destruct (in_dec string_dec name header_names) as [I|N].
  - destruct (set_header far parseIP r v) as (S1 & _ & S3 & S4 & _). destruct (get_header ipString r) as (G1 & _ & G3 & G4 & _).
    assert (Q : same_record r r) by (split; [reflexivity|]; split; [reflexivity|]; apply same_fields).
    exists r. split; [|exact Q]. cbn in I. repeat destruct I as [<-|I]; try congruence; try destruct I.
    + assert (v = LStr (h_name (rr_hdr r))) by congruence. subst v. change (set r "name" (LStr (h_name (rr_hdr r))) = (r, true)). rewrite S1. destruct r as [[] ? ?]; reflexivity.
    + assert (v = LNum (of_uint (h_class (rr_hdr r)))) by congruence. subst v. change (set r "class" (LNum (of_uint (h_class (rr_hdr r)))) = (r, true)). rewrite S3.
      assert ((2 ^ 16 <= 2 ^ 53)%N) by (apply N.pow_le_mono_r; lia). rewrite (uint_of_uint 16) by lia. destruct r as [[] ? ?]; reflexivity.
    + assert (v = LNum (of_uint (h_ttl (rr_hdr r)))) by congruence. subst v. change (set r "ttl" (LNum (of_uint (h_ttl (rr_hdr r)))) = (r, true)). rewrite S4.
      assert ((2 ^ 32 <= 2 ^ 53)%N) by (apply N.pow_le_mono_r; lia). rewrite (uint_of_uint 32) by lia. destruct r as [[] ? ?]; reflexivity.
  - rewrite get_other in G by exact N. destruct (find_field name (rrDB (rr_type r))) as [[index k]|] eqn:F; [|discriminate].
    destruct (located r name index k OK F) as (g & x & <- & I). destruct (locate r g k x OK I) as (index' & a & b & F' & BI & T & FS & _ & P).
    assert (index' = index) by congruence. subst index'. rewrite BI in G.
    destruct (field_self k x v IP T (L g k x I eq_refl) G) as (x' & SF & SV). destruct (setField_takes far parseIP k v x' SF) as [TX _].
    exists (put_field r index x'). split.
    + unfold LuaRR_model.newindex. destruct (String.eqb_spec (lower g) ""); [destruct (field_name r g k x OK I); contradiction|].
      rewrite set_other by exact N. rewrite F, SF. reflexivity.
    + split; [reflexivity|]. split; [reflexivity|]. rewrite FS, (proj1 (P x' TX)). apply Forall2_app; [apply same_fields|]. constructor; [|apply same_fields].
      split; [reflexivity|exact SV].
Qed.

(** ** New records *)
Definition same_at (s : string) (r r' : rr) : Prop :=
  (s = "name"%string -> h_name (rr_hdr r') = h_name (rr_hdr r)) /\ (s = "class"%string -> h_class (rr_hdr r') = h_class (rr_hdr r)) /\
  (s = "ttl"%string -> h_ttl (rr_hdr r') = h_ttl (rr_hdr r)) /\ forall g k x, lower g = s -> (In (g, k, x) (fields r) <-> In (g, k, x) (fields r')).
Lemma same_at_refl s r : same_at s r r.
Proof. split; [easy|]. split; [easy|]. split; [easy|]. tauto. Qed.
Lemma same_at_trans s a b c : same_at s a b -> same_at s b c -> same_at s a c.
Proof.
  intros (A1 & A2 & A3 & A4) (B1 & B2 & B3 & B4). split; [intros E; rewrite (B1 E), (A1 E); reflexivity|].
  split; [intros E; rewrite (B2 E), (A2 E); reflexivity|]. split; [intros E; rewrite (B3 E), (A3 E); reflexivity|].
  intros g k x E. rewrite (A4 g k x E). apply B4, E.
Qed.
Lemma same_at_holds s v r r' : same_at s r r' -> holds parseIP r s v -> holds parseIP r' s v.
Proof.
  intros (A & B & C & D) H. destruct H as [|x S|x S|g k x v I T].
  - rewrite <- (A eq_refl). constructor.
  - constructor. rewrite (B eq_refl). exact S.
  - constructor. rewrite (C eq_refl). exact S.
  - apply (holds_field parseIP r' g k x v); [|exact T]. apply (D g k x eq_refl), I.
Qed.
Lemma assigned_same s s' v r r' : assigned parseIP s v r r' -> s <> s' -> same_at s' r r'.
Proof.
  intros A N. destruct A as [x E1 _ ->|x n E1 _ _ ->|x n E1 _ _ ->|a b g k old new F F' E1 _ H _].
  - split; [congruence|]. split; [easy|]. split; [easy|]. reflexivity.
  - split; [easy|]. split; [congruence|]. split; [easy|]. reflexivity.
  - split; [easy|]. split; [easy|]. split; [congruence|]. reflexivity.
  - unfold same_at. rewrite H. split; [easy|]. split; [easy|]. split; [easy|]. intros g' k' x E. rewrite F, F', !in_app_iff. cbn [In].
    assert (X : forall y, (g, k, y) <> (g', k', x)) by (intros y C; apply N; congruence). specialize (X old) as X1. specialize (X new) as X2. tauto.
Qed.
Lemma assigned_holds s v r r' : assigned parseIP s v r r' -> holds parseIP r' s v.
Proof.
  intros A. destruct A as [x -> -> ->|x n -> -> S ->|x n -> -> S ->|a b g k old new F F' <- T H _].
  - exact (holds_name parseIP (RR (with_name x (rr_hdr r)) (rr_type r) (rr_vals r))).
  - constructor. exact S.
  - constructor. exact S.
  - apply (holds_field parseIP r' g k new v); [|exact T]. rewrite F'. apply in_elt.
Qed.
Lemma assigned_other s v r r' : assigned parseIP s v r r' -> rr_type r' = rr_type r /\ h_type (rr_hdr r') = h_type (rr_hdr r) /\ h_rdlen (rr_hdr r') = h_rdlen (rr_hdr r).
Proof. intros A. destruct A as [x _ _ ->|x n _ _ _ ->|x n _ _ _ ->|a b g k old new _ _ _ _ H T]; try (split; [|split]; reflexivity). rewrite H, T. auto. Qed.

Definition with_type t h := Hdr (h_name h) t (h_class h) (h_ttl h) (h_rdlen h).
Definition step (t : N) (st : rr * bool) (e : lval * lval) : rr * bool :=
  let '(r, ok) := st in
  match fst e with
  | LStr s => if String.eqb s "rtype" then (RR (with_type t (rr_hdr r)) (rr_type r) (rr_vals r), ok) else let '(r', done) := set r s (snd e) in (r', ok && done)
  | _ => (r, false)
  end.
Lemma fill_steps t entries : forall r ok, fill far parseIP t entries r ok = fold_left (step t) entries (r, ok).
Proof.
  induction entries as [|[k v] entries IH]; intros r ok; [reflexivity|]. cbn [fill fold_left step fst snd].
  destruct k; try apply IH. destruct (String.eqb s "rtype"); [apply IH|]. destruct (set r s v) as [r' done]. apply IH.
Qed.
Lemma steps_false t entries : forall r, snd (fold_left (step t) entries (r, false)) = false.
Proof.
  induction entries as [|[k v] entries IH]; intros r; [reflexivity|]. cbn [fold_left step fst snd].
  destruct k; try apply IH. destruct (String.eqb s "rtype"); [apply IH|]. destruct (set r s v) as [r' done]. apply IH.
Qed.
Lemma typed_header t r : (t < 2 ^ 16)%N -> record_ok r -> record_ok (RR (with_type t (rr_hdr r)) (rr_type r) (rr_vals r)).
Proof. intros B (A & M & _ & H). split; [exact A|]. split; [exact M|]. split; [exact B|exact H]. Qed.

Lemma filled t entries : (t < 2 ^ 16)%N -> forall r0 r, record_ok r0 -> NoDup (map fst entries) -> fold_left (step t) entries (r0, true) = (r, true) ->
  record_ok r /\ rr_type r = rr_type r0 /\ h_rdlen (rr_hdr r) = h_rdlen (rr_hdr r0) /\
  (h_type (rr_hdr r0) = t \/ (exists v, In (LStr "rtype", v) entries) -> h_type (rr_hdr r) = t) /\
  (forall k v, In (k, v) entries -> exists s, k = LStr s /\ (s = "rtype"%string \/ assignable parseIP (rr_type r) s v /\ holds parseIP r s v)) /\
  (forall s, (forall v, ~ In (LStr s, v) entries) -> same_at s r0 r).
Proof.
  intros B. induction entries as [|[k v] entries IH]; intros r0 r OK ND E.
  - cbn in E. injection E as <-. split; [exact OK|]. split; [reflexivity|]. split; [reflexivity|]. split; [intros [H|[v []]]; exact H|].
    split; [intros k v []|]. intros s _. apply same_at_refl.
  - cbn [fold_left step fst snd] in E. cbn [map fst] in ND. inversion ND as [|? ? NI ND']; subst.
    assert (OUT : forall u, ~ In (k, u) entries) by (intros u I; apply NI; change k with (fst (k, u)); apply in_map, I).
    destruct k as [|?|?|s|?|?|]; try (pose proof (steps_false t entries r0) as X; rewrite E in X; discriminate X).
    destruct (String.eqb_spec s "rtype") as [->|NR].
    + destruct (IH _ _ (typed_header t r0 B OK) ND' E) as (K1 & K2 & K3 & K4 & K5 & K6). split; [exact K1|]. split; [exact K2|]. split; [exact K3|].
      split; [intros _; apply K4; left; reflexivity|]. split.
      * intros k u [X|I]; [|apply K5, I]. injection X as <- <-. eexists; split; [reflexivity|left; reflexivity].
      * intros s H. eapply same_at_trans; [|apply K6; intros u I; apply (H u); right; exact I].
        split; [easy|]. split; [easy|]. split; [easy|]. reflexivity.
    + destruct (set r0 s v) as [r1 done] eqn:SE. cbn [andb] in E.
      destruct done; [|pose proof (steps_false t entries r1) as X; rewrite E in X; discriminate X].
      destruct (set_assigned far parseIP r0 s v r1 OK SE) as [AS OK1]. destruct (IH r1 r OK1 ND' E) as (K1 & K2 & K3 & K4 & K5 & K6).
      destruct (assigned_other s v r0 r1 AS) as (O1 & O2 & O3).
      split; [exact K1|]. split; [rewrite K2; exact O1|]. split; [rewrite K3; exact O3|]. split.
      { intros H. apply K4. destruct H as [H|[u [X|I]]]; [left; rewrite O2; exact H|congruence|right; eauto]. }
      split.
      * intros k u [X|I]; [|apply K5, I]. injection X as <- <-. exists s. split; [reflexivity|]. right. split.
        -- rewrite K2, O1. apply (set_iff far parseIP r0 s v OK). rewrite SE. reflexivity.
        -- apply (same_at_holds s v r1 r); [apply K6; exact OUT|apply (assigned_holds s v r0 r1 AS)].
      * intros s' H. apply same_at_trans with r1; [|apply K6; intros u I; apply (H u); right; exact I].
        apply (assigned_same s s' v r0 r1 AS). intros ->. apply (H v). left. reflexivity.
Qed.
Lemma filled_ok t entries : (t < 2 ^ 16)%N -> forall r0, record_ok r0 ->
  (forall k v, In (k, v) entries -> exists s, k = LStr s /\ (s = "rtype"%string \/ assignable parseIP (rr_type r0) s v)) -> snd (fold_left (step t) entries (r0, true)) = true.
Proof.
  intros B. induction entries as [|[k v] entries IH]; intros r0 OK H; [reflexivity|]. cbn [fold_left step fst snd].
  destruct (H k v (or_introl eq_refl)) as (s & -> & A). destruct (String.eqb_spec s "rtype") as [->|NR].
  - apply IH; [apply typed_header; assumption|]. intros k u I. apply H. right. exact I.
  - destruct A as [A|A]; [contradiction|]. apply (set_iff far parseIP r0 s v OK) in A. destruct (set r0 s v) as [r1 done] eqn:SE. cbn in A. subst done.
    destruct (set_assigned far parseIP r0 s v r1 OK SE) as [AS OK1]. destruct (assigned_other s v r0 r1 AS) as (O1 & _).
    apply IH; [exact OK1|]. intros k u I. rewrite O1. apply H. right. exact I.
Qed.

Lemma zero_flat fs : flat fs -> matches fs (map zero fs).
Proof.
  induction 1 as [|f fs F FS IH]; cbn; constructor; [|exact IH]. destruct f as [|n k|l]; [reflexivity| |destruct F].
  destruct k; cbn; try exact I; try reflexivity. constructor.
Qed.
Lemma zero_ok t : type_ok t -> record_ok (RR (Hdr "" 0 0 0 0) t (map zero t)).
Proof.
  intros T. split; [exact T|]. split; [|cbn; repeat split; reflexivity]. destruct T as [[F _]|(fs & -> & F & _)].
  - left. apply zero_flat, F.
  - right. exists fs, (map zero fs). split; [reflexivity|]. split; [reflexivity|]. apply zero_flat, F.
Qed.
Lemma zero_initial t g k x : type_ok t -> In (g, k, x) (fields (RR (Hdr "" 0 0 0 0) t (map zero t))) -> initial k x.
Proof.
  assert (FL : forall fs, flat fs -> In (g, k, x) (both fs (map zero fs)) -> initial k x).
  { intros fs F I. destruct (both_in _ _ _ _ _ F I) as (j & A & B). rewrite nth_error_map, A in B. injection B as <-. destruct k; reflexivity. }
  intros T I. unfold fields in I. rewrite members_struct in I. cbn [rr_type rr_vals] in I. destruct T as [[F _]|(fs & -> & F & _)].
  - apply (FL t F I).
  - cbn [map both zero] in I. rewrite members_struct, app_nil_r in I. apply (FL fs F I).
Qed.
Variable typeToRR : N -> option (list ftype).
Lemma find_rtype (entries : list (lval * lval)) k u : List.find (fun e : lval * lval => is_rtype (fst e)) entries = Some (k, u) -> k = LStr "rtype" /\ In (k, u) entries.
Proof.
  intros F. apply find_some in F. destruct F as [I H]. split; [|exact I]. cbn in H. destruct k; try discriminate. apply String.eqb_eq in H. congruence.
Qed.
Lemma rtype_found (entries : list (lval * lval)) u : NoDup (map fst entries) -> In (LStr "rtype", u) entries -> List.find (fun e : lval * lval => is_rtype (fst e)) entries = Some (LStr "rtype", u).
Proof.
  induction entries as [|[k v] entries IH]; intros ND I; [destruct I|]. cbn [map fst] in ND. inversion ND as [|? ? NI ND']; subst. cbn [find fst].
  destruct I as [I|I]; [injection I as -> ->; reflexivity|]. destruct (is_rtype k) eqn:K; [|apply IH; assumption].
  exfalso. apply NI. destruct k; try discriminate. apply String.eqb_eq in K. subst s. change (LStr "rtype") with (fst (LStr "rtype", u)). apply in_map, I.
Qed.
Lemma new_made entries r : (forall n t, typeToRR n = Some t -> type_ok t) -> NoDup (map fst entries) -> new far parseIP typeToRR entries = Some r ->
  record_ok r /\ h_rdlen (rr_hdr r) = 0%N /\
  (exists x, In (LStr "rtype", LNum x) entries /\ stores 16 x (h_type (rr_hdr r)) /\ typeToRR (h_type (rr_hdr r)) = Some (rr_type r)) /\
  (forall k v, In (k, v) entries -> exists s, k = LStr s /\ (s = "rtype"%string \/ assignable parseIP (rr_type r) s v /\ holds parseIP r s v)) /\
  ((forall v, ~ In (LStr "name", v) entries) -> h_name (rr_hdr r) = ""%string) /\ ((forall v, ~ In (LStr "class", v) entries) -> h_class (rr_hdr r) = 0%N) /\
  ((forall v, ~ In (LStr "ttl", v) entries) -> h_ttl (rr_hdr r) = 0%N) /\
  forall g k x, In (g, k, x) (fields r) -> (forall v, ~ In (LStr (lower g), v) entries) -> initial k x.
Proof.
  intros TY ND E. unfold new in E. destruct (find _ entries) as [[k u]|] eqn:F; [|discriminate]. apply find_rtype in F. destruct F as [-> I].
  destruct u as [| |x| | | |]; try discriminate. destruct (typeToRR (uint far 16 x)) as [t|] eqn:T; [|discriminate].
  rewrite fill_steps in E. destruct (fold_left _ entries _) as [r' ok] eqn:FO. destruct ok; [|discriminate]. injection E as ->.
  destruct (filled _ entries (uint_bound far 16 x) _ r (zero_ok t (TY _ _ T)) ND FO) as (K1 & K2 & K3 & K4 & K5 & K6).
  assert (HT : h_type (rr_hdr r) = uint far 16 x) by (apply K4; right; eauto).
  split; [exact K1|]. split; [exact K3|]. split; [exists x; split; [exact I|]; rewrite HT; split; [apply uint_stores|rewrite K2; exact T]|].
  split; [exact K5|]. split; [intros H; apply (K6 _ H); reflexivity|]. split; [intros H; apply (K6 _ H); reflexivity|]. split; [intros H; apply (K6 _ H); reflexivity|].
  intros g k y IN H. apply (zero_initial t g k y (TY _ _ T)). apply (K6 _ H); [reflexivity|exact IN].
Qed.
Lemma new_accepts entries x z t : (forall n t, typeToRR n = Some t -> type_ok t) -> NoDup (map fst entries) ->
  In (LStr "rtype", LNum x) entries -> denotes x z -> (0 <= z < 2 ^ 16)%Z -> typeToRR (Z.to_N z) = Some t ->
  (forall k v, In (k, v) entries -> exists s, k = LStr s /\ (s = "rtype"%string \/ assignable parseIP t s v)) -> exists r, new far parseIP typeToRR entries = Some r.
Proof.
  intros TY ND I D R T H. unfold new. rewrite (rtype_found entries _ ND I). rewrite (uint_exact far 16 x z D) by exact R. rewrite T, fill_steps.
  assert (B : (Z.to_N z < 2 ^ 16)%N) by (rewrite <- (uint_exact far 16 x z D) by exact R; apply uint_bound).
  pose proof (filled_ok (Z.to_N z) entries B _ (zero_ok t (TY _ _ T)) H) as X. destruct (fold_left _ entries _) as [r ok]. cbn in X. subst ok. eexists; reflexivity.
Qed.

(** ** The order of the entries *)
Definition uh (s : string) (v : lval) (h : hdr) : hdr :=
  if String.eqb s "name" then match v with LStr x => with_name x h | _ => h end
  else if String.eqb s "class" then match v with LNum x => with_class (uint far 16 x) h | _ => h end
  else if String.eqb s "ttl" then match v with LNum x => with_ttl (uint far 32 x) h | _ => h end
  else h.
Definition target (t : list ftype) (s : string) (v : lval) : option (list nat * fval) :=
  if in_dec string_dec s header_names then None
  else match find_field s (rrDB t) with Some (index, k) => match setField k v with Some x => Some (index, x) | None => None end | None => None end.
Definition uv (t : list ftype) (s : string) (v : lval) (vs : list fval) : list fval :=
  match target t s v with Some (index, x) => setByIndex vs index x | None => vs end.
Lemma set_parts r s v : fst (set r s v) = RR (uh s v (rr_hdr r)) (rr_type r) (uv (rr_type r) s v (rr_vals r)).
Proof.
  unfold uv, target. destruct (set_header far parseIP r v) as (S1 & S2 & S3 & S4 & S5). destruct (in_dec string_dec s header_names) as [I|N].
  - cbn in I. repeat destruct I as [<-|I]; [rewrite S1|rewrite S2|rewrite S3|rewrite S4|rewrite S5|destruct I]; destruct v; destruct r; reflexivity.
  - rewrite set_other by exact N. assert (U : uh s v (rr_hdr r) = rr_hdr r).
    { unfold uh. cbn [header_names In] in N. repeat (match goal with |- context [String.eqb s ?x] => destruct (String.eqb_spec s x); [exfalso; apply N; subst s; tauto|] end). reflexivity. }
    rewrite U. destruct (find_field s (rrDB (rr_type r))) as [[index k]|]; [|destruct r; reflexivity]. destruct (setField k v); [reflexivity|destruct r; reflexivity].
Qed.
Lemma set_done r r' s v : rr_type r = rr_type r' -> snd (set r s v) = snd (set r' s v).
Proof.
  intros E. destruct (set_header far parseIP r v) as (S1 & S2 & S3 & S4 & S5). destruct (set_header far parseIP r' v) as (T1 & T2 & T3 & T4 & T5).
  destruct (in_dec string_dec s header_names) as [I|N].
  - cbn in I. repeat destruct I as [<-|I]; [rewrite S1, T1|rewrite S2, T2|rewrite S3, T3|rewrite S4, T4|rewrite S5, T5|destruct I]; destruct v; reflexivity.
  - rewrite !set_other by exact N. rewrite E. destruct (find_field s (rrDB (rr_type r'))) as [[index k]|]; [|reflexivity]. destruct (setField k v); reflexivity.
Qed.
Lemma put_comm {A} (x y : A) : forall i j l, i <> j -> put_nth i x (put_nth j y l) = put_nth j y (put_nth i x l).
Proof. induction i as [|i IH]; intros [|j] [|z l] N; try reflexivity; [contradiction|]. cbn. rewrite IH by congruence. reflexivity. Qed.
Lemma db_path t : type_ok t -> exists p, length p <= 1 /\ forall s index k, find_field s (rrDB t) = Some (index, k) ->
  exists i, index = p ++ [i] /\ forall s' index' k', find_field s' (rrDB t) = Some (index', k') -> s <> s' -> index' <> index.
Proof.
  intros T. assert (X : exists p fs, length p <= 1 /\ rrDB t = index_of p fs 0 [] /\ NoDup (plain_names fs)).
  { destruct T as [[F (ND & _)]|(fs & -> & F & (ND & _))].
    - exists [], t. split; [cbn; lia|]. split; [apply fieldsFor_flat, F|exact ND].
    - exists [0], fs. split; [cbn; lia|]. split; [exact (fieldsFor_flat [0] fs F)|exact ND]. }
  destruct X as (p & fs & LP & E & ND). exists p. split; [exact LP|]. rewrite E.
  assert (Y : forall s index k, find_field s (index_of p fs 0 []) = Some (index, k) -> exists j g, nth_error fs j = Some (FPlain g k) /\ lower g = s /\ index = p ++ [j]).
  { intros s index k FF. destruct (in_dec string_dec s (plain_names fs)) as [I|N]; [|rewrite find_out in FF by exact N; discriminate].
    destruct (plain_nth fs s I) as (j & g & k' & J & <-). rewrite (find_in p fs 0 [] j g k' ND J) in FF. injection FF as <- <-. exists j, g. auto. }
  intros s index k FF. destruct (Y s index k FF) as (j & g & J & G & ->). exists j. split; [reflexivity|].
  intros s' index' k' FF' NE EQ. destruct (Y s' index' k' FF') as (j' & g' & J' & G' & ->). apply app_inj_tail in EQ. destruct EQ as [_ ->].
  rewrite J' in J. injection J as -> ->. congruence.
Qed.
Lemma index_comm p i j x y vs : length p <= 1 -> i <> j -> setByIndex (setByIndex vs (p ++ [i]) x) (p ++ [j]) y = setByIndex (setByIndex vs (p ++ [j]) y) (p ++ [i]) x.
Proof.
  intros L N. destruct p as [|a [|]]; cbn [app length] in *; [cbn; apply put_comm; congruence| |lia].
  assert (PS : forall (l : list fval) z, nth_error l a <> None -> nth_error (put_nth a z l) a = Some z).
  { clear. induction a as [|a IH]; intros [|w l] z; cbn; try congruence. apply IH. }
  assert (PP : forall (l : list fval) z w, put_nth a z (put_nth a w l) = put_nth a z l).
  { clear. induction a as [|a IH]; intros [|u l] z w; cbn; try reflexivity. rewrite IH. reflexivity. }
  cbn [setByIndex]. destruct (nth_error vs a) as [v|] eqn:E; [|cbn [setByIndex]; rewrite E; reflexivity].
  destruct v as [| | | | | | | | | | |l]; cbn [setByIndex]; try (rewrite E; reflexivity).
  rewrite !PS by congruence. rewrite !PP. f_equal. f_equal. apply put_comm. congruence.
Qed.
Lemma uh_comm a b va vb h : a <> b -> uh a va (uh b vb h) = uh b vb (uh a va h).
Proof.
  intros N. unfold uh. destruct (String.eqb_spec a "name"); destruct (String.eqb_spec b "name"); try congruence;
  destruct (String.eqb_spec a "class"); destruct (String.eqb_spec b "class"); try congruence;
  destruct (String.eqb_spec a "ttl"); destruct (String.eqb_spec b "ttl"); try congruence; destruct va, vb; reflexivity.
Qed.
Lemma uv_comm t a b va vb vs : type_ok t -> a <> b -> uv t a va (uv t b vb vs) = uv t b vb (uv t a va vs).
Proof.
  intros T N. destruct (db_path t T) as (p & LP & P). unfold uv, target.
  destruct (in_dec string_dec a header_names); destruct (in_dec string_dec b header_names); try reflexivity.
  destruct (find_field a (rrDB t)) as [[ia ka]|] eqn:FA; [|reflexivity]. destruct (setField ka va) as [xa|]; [|reflexivity].
  destruct (find_field b (rrDB t)) as [[ib kb]|] eqn:FB; [|reflexivity]. destruct (setField kb vb) as [xb|]; [|reflexivity].
  destruct (P a ia ka FA) as (i & -> & Q). destruct (P b ib kb FB) as (j & -> & _). specialize (Q b _ kb FB N).
  apply index_comm; [exact LP|]. intros ->. apply Q. reflexivity.
Qed.
Lemma step_type t st e : rr_type (fst (step t st e)) = rr_type (fst st).
Proof.
  destruct st as [r ok]. cbn. destruct (fst e); try reflexivity. destruct (String.eqb s "rtype"); [reflexivity|].
  pose proof (set_keeps far parseIP r s (snd e)) as K. destruct (set r s (snd e)). exact K.
Qed.
Lemma step_other t r ok s v : s <> "rtype"%string -> step t (r, ok) (LStr s, v) = (RR (uh s v (rr_hdr r)) (rr_type r) (uv (rr_type r) s v (rr_vals r)), ok && snd (set r s v)).
Proof.
  intros N. cbn [step fst snd]. destruct (String.eqb_spec s "rtype"); [contradiction|]. rewrite <- set_parts. destruct (set r s v); reflexivity.
Qed.
Lemma uh_type s v t h : uh s v (with_type t h) = with_type t (uh s v h).
Proof. unfold uh. destruct (String.eqb s "name"), (String.eqb s "class"), (String.eqb s "ttl"), v; reflexivity. Qed.
Lemma step_comm t e1 e2 st : type_ok (rr_type (fst st)) -> fst e1 <> fst e2 -> step t (step t st e1) e2 = step t (step t st e2) e1.
Proof.
  destruct st as [r ok]. destruct e1 as [k1 v1], e2 as [k2 v2]. cbn [fst]. intros T N.
  assert (NS : forall k v st', (forall s, k <> LStr s) -> step t st' (k, v) = (fst st', false)).
  { intros k v [r' ok'] H. cbn [step fst snd]. destruct k; try reflexivity. exfalso. apply (H s). reflexivity. }
  assert (KEY : forall k, (exists s, k = LStr s) \/ forall s, k <> LStr s) by (intros []; try (right; congruence); left; eauto).
  assert (FF : forall st' e, fst (step t (fst st', false) e) = fst (step t st' e) /\ snd (step t (fst st', false) e) = false).
  { intros [r' ok'] [k v]. cbn [step fst snd]. destruct k; try (split; reflexivity). destruct (String.eqb s "rtype"); [split; reflexivity|].
    destruct (set r' s v). split; reflexivity. }
  destruct (KEY k1) as [[s1 ->]|H1].
  2:{ rewrite (NS k1 v1 (r, ok) H1), (NS k1 v1 _ H1). destruct (FF (r, ok) (k2, v2)) as [A B]. rewrite (surjective_pairing (step t (fst (r, ok), false) (k2, v2))), A, B. reflexivity. }
  destruct (KEY k2) as [[s2 ->]|H2].
  2:{ rewrite (NS k2 v2 (r, ok) H2), (NS k2 v2 _ H2). destruct (FF (r, ok) (LStr s1, v1)) as [A B]. rewrite (surjective_pairing (step t (fst (r, ok), false) (LStr s1, v1))), A, B. reflexivity. }
  assert (SN : s1 <> s2) by congruence.
  assert (RT : forall r' ok' v, step t (r', ok') (LStr "rtype", v) = (RR (with_type t (rr_hdr r')) (rr_type r') (rr_vals r'), ok')) by reflexivity.
  destruct (string_dec s1 "rtype") as [->|N1]; [|destruct (string_dec s2 "rtype") as [->|N2]].
  - rewrite RT, !step_other by congruence. rewrite ?RT, ?step_other by congruence. cbn [rr_hdr rr_type rr_vals]. rewrite uh_type. f_equal. f_equal. apply set_done. reflexivity.
  - rewrite RT, !step_other by congruence. rewrite ?RT, ?step_other by congruence. cbn [rr_hdr rr_type rr_vals]. rewrite uh_type. f_equal. f_equal. apply set_done. reflexivity.
  - rewrite !step_other by assumption. rewrite ?step_other by assumption. cbn [rr_hdr rr_type rr_vals]. f_equal.
    + f_equal; [apply uh_comm; congruence|apply uv_comm; [exact T|congruence]].
    + rewrite <- !andb_assoc. f_equal. rewrite andb_comm. f_equal; apply set_done; reflexivity.
Qed.
Lemma steps_perm t l l' : Permutation l l' -> NoDup (map fst l) -> forall st, type_ok (rr_type (fst st)) -> fold_left (step t) l st = fold_left (step t) l' st.
Proof.
  induction 1 as [|e l l' P IH|e1 e2 l|l1 l2 l3 P1 IH1 P2 IH2]; intros ND st T.
  - reflexivity.
  - cbn. apply IH; [inversion ND; assumption|]. rewrite step_type. exact T.
  - cbn. rewrite step_comm; [reflexivity|exact T|]. cbn in ND. inversion ND as [|? ? NI ?]; subst. intros E. apply NI. left. congruence.
  - rewrite (IH1 ND st T). apply IH2; [|exact T]. apply (Permutation_NoDup (Permutation_map fst P1) ND).
Qed.
Lemma new_perm l l' : (forall n t, typeToRR n = Some t -> type_ok t) -> NoDup (map fst l) -> Permutation l l' -> new far parseIP typeToRR l = new far parseIP typeToRR l'.
Proof.
  intros TY ND P. assert (ND' : NoDup (map fst l')) by (apply (Permutation_NoDup (Permutation_map fst P) ND)).
  assert (F : find (fun e : lval * lval => is_rtype (fst e)) l = find (fun e => is_rtype (fst e)) l').
  { destruct (find _ l) as [[k u]|] eqn:F1.
    - apply find_rtype in F1. destruct F1 as [-> I]. symmetry. apply rtype_found; [exact ND'|]. apply (Permutation_in _ P), I.
    - destruct (find _ l') as [[k u]|] eqn:F2; [|reflexivity]. apply find_rtype in F2. destruct F2 as [-> I].
      apply (Permutation_in _ (Permutation_sym P)) in I. rewrite (rtype_found l u ND I) in F1. discriminate. }
  unfold new. rewrite <- F. destruct (find _ l) as [[k u]|]; [|reflexivity]. destruct u; try reflexivity.
  destruct (typeToRR (uint far 16 x)) as [t|] eqn:T; [|reflexivity]. rewrite !fill_steps.
  rewrite (steps_perm _ l l' P ND); [reflexivity|]. apply (TY _ _ T).
Qed.
End Props.
