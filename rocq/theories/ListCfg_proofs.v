From Verif Require Import Base Bytes Dns Cidr_spec Lists_model Geo_model Blocklist_model Blocklist_spec Blocklist_proofs ListCfg_model ListCfg_spec.
Local Open Scope string_scope.

(** *** Strings *)
Lemma chars_app a b : list_ascii_of_string (a ++ b) = (list_ascii_of_string a ++ list_ascii_of_string b)%list.
Proof. induction a as [|c a IH]; cbn; [reflexivity|now rewrite IH]. Qed.
Lemma absent_app c a b : absent c (a ++ b) <-> absent c a /\ absent c b.
Proof. unfold absent. rewrite chars_app, in_app_iff. tauto. Qed.
Lemma absent_cons c x s : absent c (String x s) <-> x <> c /\ absent c s.
Proof. unfold absent. cbn. split; [intros H; split; intros E; apply H; [now left|now right]|intros [A B] [E|E]; auto]. Qed.
Lemma absent_nil c : absent c "".
Proof. now intros []. Qed.
Lemma clean_app a b : clean (a ++ b) <-> clean a /\ clean b.
Proof.
  unfold clean. rewrite chars_app. split; [intros H; split; intros c I; apply H, in_or_app; auto|].
  intros [A B] c I. apply in_app_or in I as [I|I]; auto.
Qed.
Lemma app_assoc_s (a b c : string) : (a ++ b) ++ c = a ++ (b ++ c).
Proof. induction a as [|x a IH]; cbn; [reflexivity|now rewrite IH]. Qed.
Lemma app_nil_s (a : string) : a ++ "" = a.
Proof. induction a as [|x a IH]; cbn; [reflexivity|now rewrite IH]. Qed.
Lemma app_split (a b u t : string) : a ++ b = u ++ t -> (exists k, u = a ++ k /\ b = k ++ t) \/ (exists k, a = u ++ k /\ t = k ++ b).
Proof.
  revert u. induction a as [|x a IH]; intros [|y u] E; cbn in *.
  - left. exists "". auto.
  - left. exists (String y u). auto.
  - right. exists (String x a). auto.
  - injection E as -> E. apply IH in E as [(k & -> & ->)|(k & -> & ->)]; [left|right]; now exists k.
Qed.
Lemma cut_eq c s : s = fst (cut c s) ++ match snd (cut c s) with Some b => String c b | None => "" end.
Proof.
  induction s as [|x s IH]; [reflexivity|]. cbn. destruct (Ascii.eqb x c) eqn:E; [apply Ascii.eqb_eq in E as ->; reflexivity|]. cbn. now rewrite <- IH.
Qed.
Lemma cut_absent c s : absent c (fst (cut c s)).
Proof.
  induction s as [|x s IH]; [apply absent_nil|]. cbn. destruct (Ascii.eqb x c) eqn:E; [apply absent_nil|]. cbn. apply absent_cons. split; [|exact IH].
  now apply Ascii.eqb_neq.
Qed.
Lemma cut_app c a b : absent c a -> fst (cut c (a ++ b)) = a ++ fst (cut c b) /\ snd (cut c (a ++ b)) = snd (cut c b).
Proof.
  induction a as [|x a IH]; cbn; [auto|]. intros H. apply absent_cons in H as [N H]. apply Ascii.eqb_neq in N. rewrite N. cbn.
  destruct (IH H) as [-> ->]. auto.
Qed.
Lemma cut_here c b : cut c (String c b) = ("", Some b).
Proof. cbn. now rewrite Ascii.eqb_refl. Qed.
Lemma cut_prefix c s : exists t, s = fst (cut c s) ++ t.
Proof. eexists. apply cut_eq. Qed.
Lemma contains_absent c s : contains c s = false <-> absent c s.
Proof.
  induction s as [|x s IH]; cbn; [split; [intros _; apply absent_nil|reflexivity]|]. rewrite orb_false_iff, IH, absent_cons, Ascii.eqb_neq.
  split; intros [A B]; split; auto.
Qed.
Lemma contains_here c a b : contains c (a ++ String c b) = true.
Proof.
  destruct (contains c (a ++ String c b)) eqn:E; [reflexivity|]. apply contains_absent, absent_app in E as [_ E]. apply absent_cons in E as [E _]. congruence.
Qed.
Lemma prefix_app p u t : has_prefix p u = true -> has_prefix p (u ++ t) = true.
Proof.
  revert u. induction p as [|x p IH]; intros [|y u]; cbn; try reflexivity; try discriminate.
  - now destruct t.
  - destruct (ascii_dec x y); [apply IH|discriminate].
Qed.
Lemma clean_ctl s : clean s -> has_ctl s = false.
Proof.
  induction s as [|c s IH]; [reflexivity|]. intros H. cbn. rewrite IH; [|intros x I; apply H; now right].
  destruct (H c (or_introl eq_refl)) as (A & B & _). apply N.ltb_ge in A. apply N.eqb_neq in B. now rewrite A, B.
Qed.
Lemma clean_escapes s : clean s -> escapes_ok s = true.
Proof.
  induction s as [|c s IH]; [reflexivity|]. intros H. cbn. destruct (H c (or_introl eq_refl)) as (_ & _ & A). apply Ascii.eqb_neq in A. rewrite A.
  apply IH. intros x I. apply H. now right.
Qed.
Lemma clean_some s t : clean s -> (exists a, s = a ++ t) -> clean t.
Proof. intros H [a ->]. now apply clean_app in H as [_ H]. Qed.

(** *** url_parse *)
Lemma local_prefix p u t : local_path p -> p = u ++ t -> local_path u.
Proof.
  intros (C & P & a & b & -> & A & B) E. split; [|split].
  - rewrite E in C. now apply clean_app in C.
  - destruct (has_prefix "//" u) eqn:X; [|reflexivity]. apply (prefix_app _ _ t) in X. congruence.
  - apply app_split in E as [(k & -> & E)|(k & -> & E)].
    + exists a, k. split; [reflexivity|]. split; [exact A|]. destruct k as [|x k]; [now left|right]. destruct B as [->|[b' ->]]; [discriminate|].
      injection E as -> _. now exists k.
    + exists u, "". rewrite app_nil_s. apply absent_app in A as [A _]. auto.
Qed.
Lemma local_cut c p : local_path p -> local_path (fst (cut c p)).
Proof. intros H. destruct (cut_prefix c p) as [t E]. eapply local_prefix; eassumption. Qed.
Lemma scan_none a b : absent ":" a -> (b = "" \/ exists b', b = String "/" b') -> scan_scheme (a ++ b) = None.
Proof.
  intros A B. induction a as [|c a IH]; cbn.
  - destruct B as [->|[b' ->]]; reflexivity.
  - apply absent_cons in A as [N A]. apply Ascii.eqb_neq in N. rewrite N. destruct (alpha c || digitlike c); [|reflexivity]. now rewrite IH.
Qed.
Lemma local_noscheme p : local_path p -> getScheme p = NoScheme.
Proof.
  intros (_ & _ & a & b & -> & A & B). unfold getScheme. pose proof (scan_none a b A B) as S.
  destruct (a ++ b) as [|c s] eqn:E; [reflexivity|]. destruct (digitlike c); [reflexivity|].
  destruct (Ascii.eqb c ":") eqn:X; [|now rewrite S]. exfalso. apply Ascii.eqb_eq in X as ->.
  destruct a as [|y a]; cbn in E; [destruct B as [->|[b' ->]]; discriminate|]. injection E as -> _. apply absent_cons in A as [A _]. congruence.
Qed.
Lemma first_segment p : local_path p -> contains ":" (fst (cut "/" p)) = false.
Proof.
  intros (_ & _ & a & b & -> & A & B). apply contains_absent. destruct (cut_prefix "/" (a ++ b)) as [t E]. apply app_split in E as [(k & E & K)|(k & E & _)].
  - rewrite E. apply absent_app. split; [exact A|]. destruct k as [|x k]; [apply absent_nil|exfalso]. pose proof (cut_absent "/" (a ++ b)) as N.
    rewrite E in N. apply absent_app in N as [_ N]. destruct B as [->|[b' ->]]; [discriminate|]. injection K as <- _. apply absent_cons in N as [N _]. congruence.
  - rewrite E in A. now apply absent_app in A.
Qed.
Section URL.
Variable authority : string -> bool.
Lemma local_main u : local_path u -> parse_main authority u = Some "".
Proof.
  intros H. unfold parse_main. rewrite (clean_ctl u) by apply H. destruct (String.eqb u "*"); [reflexivity|]. rewrite (local_noscheme u H).
  pose proof (local_cut "?" u H) as L. set (r := fst (cut "?" u)) in *. rewrite (first_segment r L), andb_false_r.
  unfold parse_rest. destruct L as (C & P & _). rewrite P, andb_false_r. now rewrite (clean_escapes r C).
Qed.
Lemma frag_clean c p f : clean p -> snd (cut c p) = Some f -> clean f.
Proof.
  intros C E. pose proof (cut_eq c p) as X. rewrite E in X. rewrite X in C. apply clean_app in C as [_ C].
  change (String c f) with (String c "" ++ f) in C. now apply clean_app in C.
Qed.
Lemma local_parse p : local_path p -> url_parse authority p = Some "".
Proof.
  intros H. unfold url_parse. pose proof (local_main _ (local_cut "#" p H)) as M. pose proof (frag_clean "#" p) as F. destruct (cut "#" p) as [u [f|]]; cbn in *.
  - rewrite M. rewrite (clean_escapes f); [reflexivity|]. apply F; [apply H|reflexivity].
  - now rewrite M.
Qed.

Lemma lower_alpha c : between 97 (N_of_ascii (lower_ascii c)) 122 = true -> alpha c = true.
Proof. destruct c as [[] [] [] [] [] [] [] []]; vm_compute; intros H; try reflexivity; discriminate. Qed.
Fixpoint all_alpha (s : string) : Prop := match s with EmptyString => True | String c s' => alpha c = true /\ all_alpha s' end.
Fixpoint low (s : string) : bool := match s with EmptyString => true | String c s' => between 97 (N_of_ascii c) 122 && low s' end.
Lemma low_alpha s : low (lower s) = true -> all_alpha s.
Proof. induction s as [|c s IH]; cbn; [auto|]. intros H. apply andb_prop in H as [A B]. split; [now apply lower_alpha|auto]. Qed.
Lemma http_alpha s : http_name s -> all_alpha s.
Proof. intros [E|E]; apply low_alpha; rewrite E; reflexivity. Qed.
Lemma alpha_not c x : alpha c = true -> alpha x = false -> c <> x.
Proof. intros A B ->. congruence. Qed.
Lemma alpha_absent s x : all_alpha s -> alpha x = false -> absent x s.
Proof. induction s as [|c s IH]; cbn; intros A B; [apply absent_nil|]. apply absent_cons. split; [now apply alpha_not|]. apply IH; tauto. Qed.
Lemma alpha_digit c : alpha c = true -> digitlike c = false.
Proof. destruct c as [[] [] [] [] [] [] [] []]; vm_compute; intros H; try reflexivity; discriminate. Qed.
Lemma scan_alpha s r : all_alpha s -> scan_scheme (s ++ String ":" r) = Some (s, r).
Proof.
  induction s as [|c s IH]; cbn; [reflexivity|]. intros [A B]. rewrite (proj2 (Ascii.eqb_neq c ":")) by now apply alpha_not.
  now rewrite A, (IH B).
Qed.
Lemma http_scheme s r : http_name s -> getScheme (s ++ String ":" r) = Scheme s r.
Proof.
  intros H. pose proof (http_alpha s H) as A. unfold getScheme. pose proof (scan_alpha s r A) as S.
  destruct s as [|c s]; [destruct H; discriminate|]. cbn [String.append] in *. destruct A as [A _]. rewrite (alpha_digit c A).
  rewrite (proj2 (Ascii.eqb_neq c ":")) by now apply alpha_not. now rewrite S.
Qed.
Lemma http_star s r : http_name s -> String.eqb (s ++ String ":" r) "*" = false.
Proof.
  intros H. apply String.eqb_neq. intros E. pose proof (http_alpha s H) as A. destruct s as [|c s]; [destruct H; discriminate|].
  injection E as -> _. destruct A as [A _]. discriminate.
Qed.
Lemma http_main s r sch : http_name s -> parse_main authority (s ++ String ":" r) = Some sch -> sch = lower s.
Proof.
  intros H. unfold parse_main. destruct (has_ctl _); [discriminate|]. rewrite (http_star s r H), (http_scheme s r H).
  destruct (has_prefix "/" _); [destruct (parse_rest _ _ _)|]; congruence.
Qed.
Lemma http_cut s r : http_name s -> fst (cut "#" (s ++ String ":" r)) = s ++ String ":" (fst (cut "#" r)) /\ snd (cut "#" (s ++ String ":" r)) = snd (cut "#" r).
Proof. intros H. apply (cut_app "#" s (String ":" r)). apply alpha_absent; [now apply http_alpha|reflexivity]. Qed.
Lemma url_main u sch : url_parse authority u = Some sch -> parse_main authority (fst (cut "#" u)) = Some sch.
Proof.
  unfold url_parse. destruct (cut "#" u) as [v f]. cbn [fst]. destruct (parse_main authority v) as [s|]; [|now destruct f]. destruct f as [f|]; [|auto].
  destruct (escapes_ok f); [auto|discriminate].
Qed.
Lemma like_parse u sch : http_like u -> url_parse authority u = Some sch -> sch = "http" \/ sch = "https".
Proof.
  intros (s & r & -> & H) E. apply url_main in E. destruct (http_cut s r H) as [X _]. rewrite X in E. apply http_main in E as ->; [|exact H]. exact H.
Qed.
Lemma scan_eq u s r : scan_scheme u = Some (s, r) -> u = s ++ String ":" r /\ absent ":" s.
Proof.
  revert s r. induction u as [|c u IH]; cbn; [discriminate|]. intros s r. destruct (Ascii.eqb c ":") eqn:E.
  - intros X. injection X as <- <-. apply Ascii.eqb_eq in E as ->. split; [reflexivity|apply absent_nil].
  - destruct (alpha c || digitlike c); [|discriminate]. destruct (scan_scheme u) as [[s' r']|]; [|discriminate]. intros X. injection X as <- <-.
    destruct (IH s' r' eq_refl) as [-> A]. split; [reflexivity|]. apply absent_cons. split; [now apply Ascii.eqb_neq|exact A].
Qed.
Lemma get_eq u s r : getScheme u = Scheme s r -> u = s ++ String ":" r /\ absent ":" s /\ s <> "".
Proof.
  unfold getScheme. destruct u as [|c u]; [discriminate|]. destruct (digitlike c); [discriminate|]. destruct (Ascii.eqb c ":") eqn:E; [discriminate|].
  destruct (scan_scheme (String c u)) as [[s' r']|] eqn:X; [|discriminate]. intros Y. injection Y as <- <-. apply scan_eq in X as [X A].
  split; [exact X|]. split; [exact A|]. intros ->. injection X as -> _. discriminate.
Qed.
Lemma main_scheme u sch : parse_main authority u = Some sch -> sch <> "" -> exists s r, u = s ++ String ":" r /\ absent ":" s /\ sch = lower s.
Proof.
  unfold parse_main. destruct (has_ctl u); [discriminate|]. destruct (String.eqb u "*"); [congruence|]. destruct (getScheme u) as [| |s r] eqn:G; [|discriminate|].
  - destruct (_ && _); [discriminate|]. destruct (parse_rest _ _ _); [congruence|discriminate].
  - intros E _. apply get_eq in G as (-> & A & _). exists s, r. split; [reflexivity|]. split; [exact A|].
    destruct (has_prefix "/" _); [destruct (parse_rest _ _ _)|]; congruence.
Qed.
Lemma parse_like u sch : url_parse authority u = Some sch -> sch = "http" \/ sch = "https" -> http_like u.
Proof.
  intros E H. apply url_main in E. apply main_scheme in E as (s & r & E & _ & ->); [|destruct H as [-> | ->]; discriminate].
  rewrite (cut_eq "#" u), E, app_assoc_s. cbn. eexists s, _. split; [reflexivity|exact H].
Qed.
Lemma web_parse u : web authority u -> exists sch, url_parse authority u = Some sch /\ (sch = "http" \/ sch = "https").
Proof.
  intros (s & h & tl & -> & H & C & A1 & A2 & A3 & T & AU). exists (lower s). split; [|exact H].
  change (s ++ "://" ++ h ++ tl) with (s ++ String ":" ("//" ++ h ++ tl)) in *. unfold url_parse.
  pose proof (http_cut s ("//" ++ h ++ tl) H) as [K1 K2]. pose proof (frag_clean "#") as F.
  assert (fst (cut "#" ("//" ++ h ++ tl)) = "//" ++ h ++ fst (cut "#" tl)) as K3 by (cbn; f_equal; f_equal; now apply cut_app).
  rewrite K3 in K1. specialize (F (s ++ String ":" ("//" ++ h ++ tl))). destruct (cut "#" (s ++ String ":" ("//" ++ h ++ tl))) as [v f] eqn:V.
  cbn [fst snd] in *. pose proof (cut_eq "#" (s ++ String ":" ("//" ++ h ++ tl))) as W. rewrite V in W. cbn [fst snd] in W.
  assert (clean v) as CV by (rewrite W in C; now apply clean_app in C).
  assert (parse_main authority v = Some (lower s)) as M.
  { unfold parse_main. rewrite (clean_ctl v CV). subst v. rewrite (http_star s _ H), (http_scheme s _ H).
    assert (fst (cut "?" ("//" ++ h ++ fst (cut "#" tl))) = "//" ++ h ++ fst (cut "?" (fst (cut "#" tl)))) as K4 by (cbn; f_equal; f_equal; now apply cut_app).
    rewrite K4. set (t2 := fst (cut "?" (fst (cut "#" tl)))) in *.
    assert (has_prefix "/" ("//" ++ h ++ t2) = true) as -> by reflexivity.
    assert (t2 = "" \/ exists t3, t2 = String "/" t3) as T2.
    { subst t2. destruct T as [->|(c & tl' & -> & [-> |[-> | ->]])]; [now left|right|left|left]; cbn; eauto. }
    assert (clean ("//" ++ h ++ t2)) as C2.
    { apply (proj2 (clean_app "//" (h ++ t2))). rewrite W in C. apply clean_app in C as [C _].
      apply clean_app in C as [_ C]. change (String ":" ("//" ++ h ++ fst (cut "#" tl))) with ("://" ++ h ++ fst (cut "#" tl)) in C.
      apply clean_app in C as [C0 C]. apply clean_app in C as [C3 C4]. split; [intros x I; apply C0; right; exact I|]. apply clean_app. split; [exact C3|].
      destruct (cut_prefix "?" (fst (cut "#" tl))) as [t E]. rewrite E in C4. now apply clean_app in C4. }
    unfold parse_rest. cbn [orb andb String.append].
    assert (has_prefix "//" (String "/" (String "/" (h ++ t2))) = true) as -> by (cbn; destruct (h ++ t2); reflexivity).
    destruct (cut_app "/" h t2 A1) as [-> ->]. destruct T2 as [->|[t3 ->]].
    - cbn [cut fst snd]. now rewrite app_nil_s, AU.
    - rewrite cut_here. cbn [fst snd]. rewrite app_nil_s, AU. rewrite clean_escapes; [reflexivity|].
      change (String "/" t3) with ("/" ++ t3) in C2. apply clean_app in C2 as [_ C2]. apply clean_app in C2 as [_ C2]. now apply clean_app in C2. }
  rewrite M. destruct f as [f|]; [|reflexivity]. rewrite (clean_escapes f); [reflexivity|]. now apply F.
Qed.
Lemma colon_parse a b sch : absent "/" a -> absent "?" a -> absent "#" a -> absent ":" a -> ~ http_name a ->
  url_parse authority (a ++ String ":" b) = Some sch -> sch <> "http" /\ sch <> "https" /\ sch <> "".
Proof.
  intros A1 A2 A3 A4 NH E. apply url_main in E. destruct (cut_app "#" a (String ":" b) A3) as [X _]. rewrite X in E. clear X.
  change (fst (cut "#" (String ":" b))) with (String ":" (fst (cut "#" b))) in E. set (b' := fst (cut "#" b)) in *.
  unfold parse_main in E. destruct (has_ctl _); [discriminate|]. destruct (String.eqb (a ++ String ":" b') "*") eqn:ST.
  { apply String.eqb_eq in ST. destruct a as [|x [|y a]]; discriminate. }
  destruct (getScheme (a ++ String ":" b')) as [| |s r] eqn:G; [|discriminate|].
  - exfalso. destruct (cut_app "?" a (String ":" b') A2) as [X _]. rewrite X in E. change (fst (cut "?" (String ":" b'))) with (String ":" (fst (cut "?" b'))) in E.
    set (b2 := fst (cut "?" b')) in *.
    destruct (cut_app "/" a (String ":" b2) A1) as [Y _]. rewrite Y in E. change (fst (cut "/" (String ":" b2))) with (String ":" (fst (cut "/" b2))) in E.
    rewrite contains_here, andb_true_r in E. destruct (has_prefix "/" (a ++ String ":" b2)) eqn:P; [|discriminate].
    destruct a as [|x a]; [discriminate P|]. cbn [has_prefix String.prefix String.append] in P. unfold has_prefix in P. cbn [String.prefix] in P.
    destruct (ascii_dec "/" x) as [<-|]; [|discriminate P]. apply absent_cons in A1 as [A1 _]. congruence.
  - apply get_eq in G as (G & As & Ns).
    assert (s = a) as ->.
    { apply app_split in G as [(k & -> & K)|(k & -> & K)].
      - destruct k as [|x k]; [now rewrite app_nil_s|]. injection K as <- _. apply absent_app in As as [_ As]. apply absent_cons in As as [As _]. congruence.
      - destruct k as [|x k]; [now rewrite app_nil_s|]. injection K as <- _. apply absent_app in A4 as [_ A4]. apply absent_cons in A4 as [A4 _]. congruence. }
    assert (sch = lower a) as -> by (destruct (has_prefix "/" _); [destruct (parse_rest _ _ _)|]; congruence).
    split; [|split]; intros Q; [apply NH; now left|apply NH; now right|]. destruct a; [congruence|discriminate].
Qed.
End URL.
