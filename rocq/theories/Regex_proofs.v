From Verif Require Import Base Regex_model.
Local Open Scope string_scope.

(** The language of an expression *)
Inductive lang : regex -> string -> Prop :=
| L_eps : lang Eps ""
| L_cls p c : p c = true -> lang (Cls p) (String c "")
| L_cat a b s t : lang a s -> lang b t -> lang (Cat a b) (s ++ t)
| L_altl a b s : lang a s -> lang (Alt a b) s
| L_altr a b s : lang b s -> lang (Alt a b) s
| L_star0 a : lang (Star a) ""
| L_star1 a s t : lang a s -> lang (Star a) t -> lang (Star a) (s ++ t).

Lemma app_nil s : (s ++ "" = s)%string.
Proof. induction s as [|c s IH]; cbn; congruence. Qed.
Lemma app_asc s t u : ((s ++ t) ++ u = s ++ t ++ u)%string.
Proof. induction s as [|c s IH]; cbn; congruence. Qed.
Lemma app_empty s t : (s ++ t = "")%string -> s = "" /\ t = "".
Proof. destruct s; cbn; [auto|discriminate]. Qed.

Lemma nullable_iff r : nullable r = true <-> lang r "".
Proof.
  split.
  - induction r as [| |p|a IHa b IHb|a IHa b IHb|a IHa]; cbn; intros N; try discriminate.
    + constructor.
    + apply andb_true_iff in N. destruct N. apply (L_cat a b "" ""); auto.
    + apply orb_true_iff in N. destruct N; [apply L_altl|apply L_altr]; auto.
    + constructor.
  - remember "" as e eqn:E. intros L. revert E. induction L as [| |a b s t A IA B IB|a b s A IA|a b s B IB| |]; intros E; cbn; try reflexivity; try discriminate.
    + apply app_empty in E. destruct E as (-> & ->). rewrite IA, IB; reflexivity.
    + rewrite IA by exact E. reflexivity.
    + rewrite IB by exact E. apply orb_true_r.
Qed.
Lemma star_cons a c s : lang (Star a) (String c s) -> exists u v, lang a (String c u) /\ lang (Star a) v /\ s = (u ++ v)%string.
Proof.
  remember (Star a) as r eqn:R. remember (String c s) as w eqn:W. intros L. revert a c s R W.
  induction L as [|? ?|? ? ? ?|? ? ?|? ? ?|?|a0 u v A IA B IB]; intros a' c' s' R W; try discriminate.
  injection R as ->. destruct u as [|d u]; cbn in W.
  - apply (IB a' c' s'); auto.
  - injection W as -> <-. eauto.
Qed.
Lemma deriv_iff r : forall c s, lang (deriv c r) s <-> lang r (String c s).
Proof.
  induction r as [| |p|a IHa b IHb|a IHa b IHb|a IHa]; intros c s; cbn [deriv].
  - split; intros L; inversion L.
  - split; intros L; inversion L.
  - destruct (p c) eqn:P.
    + split; intros L; inversion L; subst; constructor; exact P.
    + split; intros L; inversion L; subst; congruence.
  - assert (C1 : forall x, lang (Cat (deriv c a) b) x -> lang (Cat a b) (String c x)).
    { intros x L. inversion L as [| |? ? u v A B| | | |]; subst. apply IHa in A. exact (L_cat a b _ _ A B). }
    assert (C2 : lang (Cat a b) (String c s) -> lang (Cat (deriv c a) b) s \/ (nullable a = true /\ lang b (String c s))).
    { intros L. inversion L as [| |? ? u v A B E| | | |]; subst. destruct u as [|d u]; cbn in *.
      - right. split; [apply nullable_iff; exact A|subst v; exact B].
      - left. match goal with X : String _ _ = String _ _ |- _ => injection X as -> <- end. apply L_cat; [apply IHa; exact A|exact B]. }
    destruct (nullable a) eqn:N.
    + split.
      * intros L. inversion L as [| | |? ? ? A|? ? ? B| |]; subst; [apply C1; exact A|]. apply IHb in B. apply nullable_iff in N. exact (L_cat a b "" _ N B).
      * intros L. destruct (C2 L) as [H|(_ & H)]; [apply L_altl; exact H|apply L_altr; apply IHb; exact H].
    + split; [apply C1|]. intros L. destruct (C2 L) as [H|(H & _)]; [exact H|discriminate].
  - split; intros L; inversion L; subst; [apply L_altl; apply IHa; assumption|apply L_altr; apply IHb; assumption|apply L_altl; apply IHa; assumption|apply L_altr; apply IHb; assumption].
  - split.
    + intros L. inversion L as [| |? ? u v A B| | | |]; subst. apply IHa in A. exact (L_star1 a _ _ A B).
    + intros L. destruct (star_cons a c s L) as (u & v & A & B & ->). apply L_cat; [apply IHa; exact A|exact B].
Qed.
Lemma match_iff r s : matchString r s = true <-> lang r s.
Proof. revert r. induction s as [|c s IH]; intros r; cbn; [apply nullable_iff|]. rewrite IH. apply deriv_iff. Qed.

(** Every character has a property *)
Fixpoint all_chars (p : ascii -> bool) (s : string) : bool := match s with "" => true | String c s' => p c && all_chars p s' end.
Lemma all_chars_app p s t : all_chars p (s ++ t) = all_chars p s && all_chars p t.
Proof. induction s as [|c s IH]; cbn; [reflexivity|]. rewrite IH. apply andb_assoc. Qed.
Lemma star_cls p s : lang (Star (Cls p)) s <-> all_chars p s = true.
Proof.
  split.
  - remember (Star (Cls p)) as r eqn:R. intros L. revert R. induction L as [| | | | |a|a u v A IA B IB]; intros R; try discriminate; [reflexivity|].
    injection R as ->. inversion A as [|? c P| | | | |]; subst. cbn. rewrite P. auto.
  - induction s as [|c s IH]; cbn; intros H; [constructor|]. apply andb_true_iff in H. destruct H as (P & H).
    exact (L_star1 (Cls p) (String c "") s (L_cls p c P) (IH H)).
Qed.
Lemma plus_cls p s : lang (plus (Cls p)) s <-> s <> "" /\ all_chars p s = true.
Proof.
  unfold plus. split.
  - intros L. inversion L as [| |? ? u v A B| | | |]; subst. inversion A as [|? c P| | | | |]; subst. apply star_cls in B. cbn. rewrite P, B. split; [discriminate|reflexivity].
  - intros (N & H). destruct s as [|c s]; [congruence|]. cbn in H. apply andb_true_iff in H. destruct H as (P & H).
    exact (L_cat _ _ (String c "") s (L_cls p c P) (proj2 (star_cls p s) H)).
Qed.
