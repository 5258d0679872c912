(** What the parser of the model computes is what Params_spec says. *)
From Verif Require Import Base Bytes Dns Client_model Addr_model OdohC_model OdohC_spec OdohC_proofs Text_spec Text_proofs Text_proofs2 Params_spec Odoh_model Odoh_spec.
From Coq Require Import ZifyBool ZifyNat ZifyN.
Local Open Scope string_scope.

Lemma hexa_iff c n : unhex c = Some n <-> hexa c n.
Proof.
  unfold unhex, hexa. cbv zeta. set (a := N_of_ascii c). clearbody a.
  destruct ((48 <=? a) && (a <=? 57))%N eqn:E1; [split; [intros [= <-]; lia|intros H; f_equal; lia]|].
  destruct ((97 <=? a) && (a <=? 102))%N eqn:E2; [split; [intros [= <-]; lia|intros H; f_equal; lia]|].
  destruct ((65 <=? a) && (a <=? 70))%N eqn:E3; [split; [intros [= <-]; lia|intros H; f_equal; lia]|].
  split; [discriminate|intros H; lia].
Qed.
Lemma unescape_ok s : forall t, unescaped s t -> QueryUnescape s = Some t.
Proof.
  intros t H. induction H as [|s t H IH|a b x y s t A B H IH|c s t N1 N2 H IH]; cbn [QueryUnescape].
  - reflexivity.
  - cbn. rewrite IH. reflexivity.
  - cbn [Ascii.eqb Bool.eqb]. apply hexa_iff in A, B. rewrite A, B, IH. reflexivity.
  - destruct (Ascii.eqb_spec c "%"); [contradiction|]. destruct (Ascii.eqb_spec c "+"); [contradiction|]. rewrite IH. reflexivity.
Qed.
Lemma unescape_len n : forall s t, (String.length s <= n)%nat -> QueryUnescape s = Some t -> unescaped s t.
Proof.
  induction n as [|n IH]; intros s t L H; destruct s as [|c s]; [injection H as <-; constructor|cbn in L; lia|injection H as <-; constructor|]. cbn [String.length] in L.
  cbn [QueryUnescape] in H. destruct (Ascii.eqb_spec c "%") as [->|N1].
  - destruct s as [|a [|b s]]; [discriminate|discriminate|]. destruct (unhex a) as [x|] eqn:A; [|discriminate]. destruct (unhex b) as [y|] eqn:B; [|discriminate].
    destruct (QueryUnescape s) as [r|] eqn:E; [|discriminate]. injection H as <-. apply U_hex; [apply hexa_iff, A|apply hexa_iff, B|]. apply IH; [cbn in L; lia|exact E].
  - destruct (QueryUnescape s) as [r|] eqn:E; [|discriminate]. injection H as <-. assert (U : unescaped s r) by (apply IH; [lia|exact E]).
    destruct (Ascii.eqb_spec c "+") as [->|N2]; constructor; assumption.
Qed.
Lemma unescape_iff s t : QueryUnescape s = Some t <-> unescaped s t.
Proof. split; [apply (unescape_len (String.length s)); lia|apply unescape_ok]. Qed.
Lemma cut_iff c s a b : cuts c s a b <-> match cut c s with Some (x, y) => a = x /\ b = y | None => a = s /\ b = "" end.
Proof.
  unfold cuts. revert a b. induction s as [|d s IH]; intros a b; cbn [cut].
  - split.
    + intros (_ & [E|[E1 E2]]); [destruct a; discriminate|auto].
    + intros [-> ->]. split; [intros (x & y & E); destruct x; discriminate|auto].
  - destruct (Ascii.eqb_spec d c) as [->|N].
    + split.
      * intros (O & [E|[E1 E2]]).
        { destruct a as [|e a]; [injection E as <-; auto|]. injection E as <- E. destruct O. exists "", a. reflexivity. }
        { destruct O. rewrite <- E1. exists "", s. reflexivity. }
      * intros [-> ->]. split; [intros (x & y & E); destruct x; discriminate|auto].
    + assert (G : forall a, occurs c (String d a) <-> occurs c a) by (intros a'; rewrite occurs_cons; intuition congruence).
      specialize (IH (match a with String _ a' => a' | "" => "" end) b). destruct (cut c s) as [[x y]|].
      * split.
        { intros (O & [E|[E1 E2]]); destruct a as [|e a]; try discriminate.
          - injection E as E1 E2. congruence.
          - injection E as <- E. rewrite G in O. destruct (proj1 IH (conj O (or_introl E))) as [-> ->]. auto.
          - injection E1 as <- E1. rewrite G in O. destruct (proj1 IH (conj O (or_intror (conj E1 E2)))) as [-> ->]. auto. }
        { intros [-> ->]. destruct (proj2 IH (conj eq_refl eq_refl)) as (O & [E|[E1 E2]]); (split; [rewrite G; exact O|]).
          - left. rewrite E. reflexivity.
          - right. rewrite E1. auto. }
      * split.
        { intros (O & [E|[E1 E2]]); destruct a as [|e a]; try discriminate.
          - injection E as E1 E2. congruence.
          - injection E as <- E. rewrite G in O. destruct (proj1 IH (conj O (or_introl E))) as [-> ->]. auto.
          - auto. }
        { intros [-> ->]. destruct (proj2 IH (conj eq_refl eq_refl)) as (O & _). split; [rewrite G; exact O|]. auto. }
Qed.
Lemma param_iff p kv : param p kv <-> OdohC_model.pair p = [kv].
Proof.
  unfold param, OdohC_model.pair. split.
  - intros (N & S & k & v & U1 & U2 & O & E). apply contains_not in S. rewrite S. destruct (String.eqb_spec p ""); [contradiction|].
    assert (C : cuts "=" p k v) by (split; [exact O|destruct E as [E|E]; auto]). apply cut_iff in C. apply unescape_iff in U1, U2.
    destruct (cut "=" p) as [[x y]|]; destruct C as [-> ->]; rewrite U1, U2; destruct kv; reflexivity.
  - destruct (contains ";" p) eqn:S; [discriminate|]. apply contains_not in S. destruct (String.eqb_spec p "") as [|N]; [discriminate|]. intros H. split; [exact N|]. split; [exact S|].
    pose proof (cut_iff "=" p) as C. destruct (cut "=" p) as [[x y]|].
    + destruct (QueryUnescape x) as [x'|] eqn:X; [|discriminate]. destruct (QueryUnescape y) as [y'|] eqn:Y; [|discriminate]. injection H as <-. apply unescape_iff in X, Y.
      destruct (proj2 (C x y) (conj eq_refl eq_refl)) as (O & E). exists x, y. cbn [fst snd]. repeat (split; [assumption|]). destruct E as [E|E]; auto.
    + destruct (QueryUnescape p) as [x'|] eqn:X; [|discriminate]. destruct (QueryUnescape "") as [y'|] eqn:Y; [|discriminate]. injection H as <-. apply unescape_iff in X, Y.
      destruct (proj2 (C p "") (conj eq_refl eq_refl)) as (O & E). exists p, "". cbn [fst snd]. repeat (split; [assumption|]). destruct E as [E|E]; auto.
Qed.
Lemma pair_cases p : OdohC_model.pair p = [] \/ exists kv, OdohC_model.pair p = [kv].
Proof.
  unfold OdohC_model.pair. destruct (contains ";" p); [auto|]. destruct (String.eqb p ""); [auto|]. destruct (match cut "=" p with Some (k, v) => (k, v) | None => (p, "") end) as [k v].
  destruct (QueryUnescape k); [|auto]. destruct (QueryUnescape v); [|auto]. right. eexists. reflexivity.
Qed.
Lemma collected_iff ps : forall l, collected ps l <-> flat_map OdohC_model.pair ps = l.
Proof.
  induction ps as [|p ps IH]; intros l; cbn [flat_map].
  - split; [intros H; inversion H; reflexivity|intros <-; constructor].
  - split.
    + intros H. inversion H as [|p' kv ps' l' P C|p' ps' l' P C]; subst.
      * apply param_iff in P. apply IH in C. rewrite P, C. reflexivity.
      * apply IH in C. destruct (pair_cases p) as [E|(kv & E)]; [rewrite E, C; reflexivity|]. destruct (P kv). apply param_iff, E.
    + intros <-. destruct (pair_cases p) as [E|(kv & E)]; rewrite E; cbn.
      * apply C_skip; [intros kv P; apply param_iff in P; congruence|]. apply IH. reflexivity.
      * apply C_take; [apply param_iff, E|]. apply IH. reflexivity.
Qed.
Lemma given_iff u base l : given u base l <-> base = url_base u /\ l = ParseQuery (url_query u).
Proof.
  assert (F : forall w f, cuts "#" u w f -> w = no_fragment u). { intros w f C. apply cut_iff in C. unfold no_fragment. destruct (cut "#" u) as [[x y]|]; apply C. }
  assert (F' : exists f, cuts "#" u (no_fragment u) f). { unfold no_fragment. pose proof (cut_iff "#" u) as C. destruct (cut "#" u) as [[x y]|]; eexists; apply C; auto. }
  assert (Q : forall b q, cuts "?" (no_fragment u) b q <-> b = url_base u /\ q = url_query u).
  { intros b q. rewrite cut_iff. unfold url_base, url_query. destruct (cut "?" (no_fragment u)) as [[x y]|]; reflexivity. }
  unfold given, ParseQuery. split.
  - intros (w & f & q & ps & C1 & C2 & P & C). apply F in C1. subst w. apply Q in C2. destruct C2 as [-> ->]. apply split_parts in P. apply collected_iff in C. rewrite P. auto.
  - intros [-> ->]. destruct F' as [f C]. exists (no_fragment u), f, (url_query u), (split "&" (url_query u)). split; [exact C|]. split; [apply Q; auto|].
    split; [apply split_parts; reflexivity|apply collected_iff; reflexivity].
Qed.
Lemma given_one u : exists base l, given u base l /\ forall base' l', given u base' l' -> base' = base /\ l' = l.
Proof. exists (url_base u), (ParseQuery (url_query u)). split; [apply given_iff; auto|]. intros b l. apply given_iff. Qed.
Lemma first_iff k l v : first k l v <-> Get k l = v.
Proof.
  unfold first. induction l as [|[k' v'] l IH]; cbn [Get map fst In].
  - split; [intros [(a & b & E & _)|[-> _]]; [destruct a; discriminate|reflexivity]|]. intros <-. right. auto.
  - destruct (String.eqb_spec k k') as [<-|N].
    + split.
      * intros [(a & b & E & I)|[_ I]]; [|destruct I; auto]. destruct a as [|x a]; [injection E as <-; reflexivity|]. injection E as <- _. destruct I. left. reflexivity.
      * intros <-. left. exists [], l. auto.
    + rewrite <- IH. split.
      * intros [(a & b & E & I)|[-> I]].
        { destruct a as [|x a]; [injection E as <- <-; contradiction|]. injection E as <- ->. left. exists a, b. split; [reflexivity|]. intros J. apply I. right. exact J. }
        { right. auto. }
      * intros [(a & b & -> & I)|[-> I]].
        { left. exists ((k', v') :: a), b. split; [reflexivity|]. cbn. intros [J|J]; [congruence|contradiction]. }
        { right. split; [reflexivity|]. intros [J|J]; [congruence|contradiction]. }
Qed.
Lemma escape_unescaped s t : unescaped (QueryEscape s) t <-> t = s.
Proof. rewrite <- unescape_iff, unescape_escape. split; congruence. Qed.
Lemma params_added n p u base l : given u base l -> exists l', given (customizeRequest n p u) base l' /\
  forall k, values k l' = (values k l ++ (if String.eqb k "targethost" then [n] else if String.eqb k "targetpath" then [p] else []))%list.
Proof.
  intros H. apply given_iff in H. destruct H as [-> ->]. eexists. split; [apply given_iff; split; [symmetry; apply custom_base|reflexivity]|]. intros k. apply custom_values.
Qed.
Lemma sees_iff remote r p : proxy_sees remote r p <-> p = at_proxy remote r.
Proof.
  unfold proxy_sees, at_proxy. cbv zeta. split.
  - intros (b & l & h & t & G & F1 & F2 & ->). apply given_iff in G. destruct G as [-> ->]. apply first_iff in F1, F2. subst. reflexivity.
  - intros ->. exists (url_base (hq_url r)), (ParseQuery (url_query (hq_url r))). eexists. eexists. split; [apply given_iff; auto|]. split; [apply first_iff; reflexivity|]. split; [apply first_iff; reflexivity|]. reflexivity.
Qed.
Lemma values_none k l : ~ In k (map fst l) -> values k l = [].
Proof.
  intros H. unfold values. induction l as [|[k' v] l IH]; [reflexivity|]. cbn [filter fst]. destruct (String.eqb_spec k k') as [->|]; [destruct H; left; reflexivity|].
  apply IH. intros I. apply H. right. exact I.
Qed.
Lemma proxied_sees : forall unpack pack base64 expand http encrypt decrypt do_ nets remote config n p o q req u base l,
  In req (fst (odoh_resolve unpack pack base64 expand http encrypt decrypt config (customizeRequest n p) o q)) ->
  dc_method o = "POST" -> expand None = Some u -> given u base l -> ~ In "targethost" (map fst l) -> ~ In "targetpath" (map fst l) ->
  domain n -> (N.of_nat (String.length n) <= 253)%N -> safe_path p -> (N.of_nat (String.length p) <= 1024)%N ->
  exists b e, pack q = Some b /\ encrypt b = Some e /\
   ((N.of_nat (length e) <= 4096)%N -> forall pr, proxy_sees remote req pr ->
    let f := Fwd "https" n p "application/oblivious-dns-message" e in ODoHproxyHandler do_ nets pr = ([f], relay (do_ f))).
Proof.
  intros unpack pack base64 expand http encrypt decrypt do_ nets remote config n p o q req u base l I M U G N1 N2 D1 D2 D3 D4. apply given_iff in G. destruct G as [_ ->].
  destruct (proxied unpack pack base64 expand http encrypt decrypt do_ nets remote config n p o q req u I M U (values_none _ _ N1) (values_none _ _ N2) D1 D2 D3 D4) as (b & e & P & E & H).
  exists b, e. split; [exact P|]. split; [exact E|]. intros L pr S. apply sees_iff in S. subst pr. exact (H L).
Qed.
Lemma get_refused_sees : forall unpack pack base64 expand http encrypt decrypt do_ nets remote config n p o q req pr,
  In req (fst (odoh_resolve unpack pack base64 expand http encrypt decrypt config (customizeRequest n p) o q)) -> dc_method o = "GET" ->
  proxy_sees remote req pr -> ODoHproxyHandler do_ nets pr = ([], PStatus 405).
Proof. intros until pr. intros I M S. apply sees_iff in S. subst pr. exact (get_refused _ _ _ _ _ _ _ _ _ _ _ _ _ _ _ _ I M). Qed.
Lemma sees_one remote r : exists p, proxy_sees remote r p /\ forall p', proxy_sees remote r p' -> p' = p.
Proof. exists (at_proxy remote r). split; [apply sees_iff; reflexivity|]. intros p'. apply sees_iff. Qed.
Lemma escaped s : chars safe (QueryEscape s) /\ forall t, unescaped (QueryEscape s) t <-> t = s.
Proof. exact (conj (escape_safe s) (escape_unescaped s)). Qed.
Lemma other_target : exists n p u base l h, given (customizeRequest n p u) base l /\ first "targethost" l h /\ h <> n.
Proof.
  exists "odoh.example.net", "/dns-query", "https://proxy.example/proxy?targethost=other.example". do 2 eexists. exists "other.example".
  split; [apply given_iff; split; reflexivity|]. split; [apply first_iff; vm_compute; reflexivity|discriminate].
Qed.
