From Verif Require Import Base Bytes Net Regex_model Regex_proofs Odoh_model Odoh_spec.
Local Open Scope string_scope.

Lemma alpha_iff c : alpha c = true <-> letter c.
Proof. unfold alpha, letter, between. cbv zeta. rewrite orb_true_iff, !andb_true_iff, !N.leb_le. tauto. Qed.
Lemma ldh_iff c : label_char c = true <-> ldh c.
Proof.
  unfold label_char, ldh. rewrite !orb_true_iff, alpha_iff. unfold digit09, between. cbv zeta. rewrite andb_true_iff, !N.leb_le.
  pose proof (Ascii.eqb_spec c "-"%char) as E. destruct E; intuition congruence.
Qed.
Lemma chars_iff p P s : (forall c, p c = true <-> P c) -> all_chars p s = true <-> chars P s.
Proof.
  intros H. unfold chars. induction s as [|c s IH]; cbn [all_chars].
  - split; [|reflexivity]. intros _ i c G. destruct i; discriminate.
  - rewrite andb_true_iff, H, IH. split.
    + intros (A & B) [|i] d G; cbn in G; [injection G as <-; exact A|exact (B i d G)].
    + intros A. split; [apply (A O c); reflexivity|]. intros i d G. apply (A (S i) d). exact G.
Qed.

Lemma concat_last (l : list string) t : l <> [] -> String.concat "." (l ++ [t]) = String.concat "." l ++ "." ++ t.
Proof.
  induction l as [|x l IH]; intros N; [congruence|]. destruct l as [|y l].
  - reflexivity.
  - change (x ++ "." ++ String.concat "." ((y :: l) ++ [t]) = (x ++ "." ++ String.concat "." (y :: l)) ++ "." ++ t).
    rewrite IH by discriminate. rewrite !app_asc. reflexivity.
Qed.
Lemma concat_cons x (l : list string) : l <> [] -> String.concat "." (x :: l) = x ++ "." ++ String.concat "." l.
Proof. destruct l; [congruence|reflexivity]. Qed.

Definition lbl : regex := Cat (plus (Cls label_char)) (Cls (Ascii.eqb ".")).
Lemma lbl_iff s : lang lbl s <-> exists l, l <> "" /\ chars ldh l /\ s = l ++ ".".
Proof.
  unfold lbl. split.
  - intros L. inversion L as [| |? ? u v A B| | | |]; subst. apply plus_cls in A. destruct A as (N & A).
    inversion B as [|? c P| | | | |]; subst. apply Ascii.eqb_eq in P. subst c.
    exists u. split; [exact N|]. split; [|reflexivity]. apply (chars_iff label_char ldh u ldh_iff). exact A.
  - intros (l & N & C & ->). apply L_cat; [|apply L_cls; reflexivity]. apply plus_cls. split; [exact N|].
    apply (chars_iff label_char ldh l ldh_iff). exact C.
Qed.
Lemma stars_to s : lang (Star lbl) s -> exists ls, Forall (fun l => l <> "" /\ chars ldh l) ls /\ forall t, s ++ t = String.concat "." (ls ++ [t]).
Proof.
  remember (Star lbl) as r eqn:R. intros L. revert R. induction L as [|? ?|? ? ? ?|? ? ?|? ? ?|a|a u v A IA B IB]; intros R; try discriminate.
  - exists []. split; [constructor|]. reflexivity.
  - injection R as ->. apply lbl_iff in A. destruct A as (l & N & C & ->). destruct (IB eq_refl) as (ls & F & E).
    exists (l :: ls). split; [constructor; auto|]. intros t. cbn [app].
    rewrite concat_cons by (destruct ls; discriminate). rewrite <- E, !app_asc. reflexivity.
Qed.
Lemma stars_from ls t : Forall (fun l => l <> "" /\ chars ldh l) ls -> exists s, lang (Star lbl) s /\ String.concat "." (ls ++ [t]) = s ++ t.
Proof.
  induction 1 as [|l ls (N & C) F IH].
  - exists "". split; [constructor|reflexivity].
  - destruct IH as (s & L & E). exists ((l ++ ".") ++ s). split.
    + apply L_star1; [apply lbl_iff; eauto|exact L].
    + cbn [app]. rewrite concat_cons by (destruct ls; discriminate). rewrite E, !app_asc. reflexivity.
Qed.
Definition tld_re : regex := Cat (Cls alpha) (Cat (Cls alpha) (Star (Cls alpha))).
Lemma tld_iff s : lang tld_re s <-> (2 <= String.length s)%nat /\ chars letter s.
Proof.
  unfold tld_re. rewrite <- (chars_iff alpha letter s alpha_iff). split.
  - intros L. inversion L as [| |? ? u v A B| | | |]; subst. inversion A as [|? c P| | | | |]; subst.
    inversion B as [| |? ? u' v' A' B'| | | |]; subst. inversion A' as [|? c' P'| | | | |]; subst. apply star_cls in B'.
    cbn. rewrite P, P', B'. split; [lia|reflexivity].
  - intros (N & H). destruct s as [|c [|d s]]; cbn in N; try lia. cbn in H. apply andb_true_iff in H. destruct H as (P & H).
    apply andb_true_iff in H. destruct H as (P' & H).
    apply (L_cat (Cls alpha) _ (String c "") (String d s)); [apply L_cls; exact P|].
    apply (L_cat (Cls alpha) _ (String d "") s); [apply L_cls; exact P'|]. apply star_cls. exact H.
Qed.
Lemma host_iff s : matchString host_regex s = true <-> domain s.
Proof.
  rewrite match_iff. change host_regex with (Cat (Cat lbl (Star lbl)) tld_re). unfold domain. split.
  - intros L. inversion L as [| |? ? u v A B| | | |]; subst. inversion A as [| |? ? x y X Y| | | |]; subst.
    apply lbl_iff in X. destruct X as (l & N & C & ->). destruct (stars_to y Y) as (ls & F & E). apply tld_iff in B. destruct B as (T1 & T2).
    exists (l :: ls), v. split; [discriminate|]. split; [constructor; auto|]. split; [exact T1|]. split; [exact T2|].
    cbn [app]. rewrite concat_cons by (destruct ls; discriminate). rewrite <- E, !app_asc. reflexivity.
  - intros (ls & t & N & F & T1 & T2 & ->). destruct ls as [|l ls]; [congruence|]. inversion F as [|? ? (NE & C) F']; subst.
    destruct (stars_from ls t F') as (s & L & E). cbn [app]. rewrite concat_cons by (destruct ls; discriminate). rewrite E.
    replace (l ++ "." ++ s ++ t) with (((l ++ ".") ++ s) ++ t) by (rewrite !app_asc; reflexivity).
    apply L_cat; [apply L_cat; [apply lbl_iff; eauto|exact L]|]. apply tld_iff. auto.
Qed.

Lemma prefix_iff a : forall s, prefix a s = true <-> exists b, s = a ++ b.
Proof.
  induction a as [|c a IH]; intros s.
  - split; [intros _; exists s; reflexivity|]. intros _. destruct s; reflexivity.
  - destruct s as [|d s].
    + split; [discriminate|]. intros (b & E). discriminate.
    + cbn [prefix]. destruct (ascii_dec c d) as [->|N].
      * rewrite IH. split; intros (b & E); exists b; [rewrite E; reflexivity|injection E as E; exact E].
      * split; [discriminate|]. intros (b & E). injection E as E _. congruence.
Qed.
Lemma prefix_dd s : prefix ".." s = true <-> exists b, s = ".." ++ b.
Proof. exact (prefix_iff ".." s). Qed.
Lemma dotdot_iff s : dotdot s = true <-> exists a b, s = a ++ ".." ++ b.
Proof.
  induction s as [|c s IH].
  - split; [discriminate|]. intros (a & b & E). destruct a; discriminate.
  - cbn [dotdot]. rewrite orb_true_iff, prefix_dd, IH. split.
    + intros [(b & ->)|(a & b & ->)]; [exists "", b; reflexivity|exists (String c a), b; reflexivity].
    + intros (a & b & E). destruct a as [|d a]; [left; exists b; exact E|right]. exists a, b. injection E as _ E. exact E.
Qed.
Lemma prefix_slash s : prefix "/" s = true <-> exists t, s = "/" ++ t.
Proof. exact (prefix_iff "/" s). Qed.
Lemma safe_iff s : safe_path s <-> String.eqb s "" || negb (prefix "/" s) || dotdot s = false.
Proof.
  unfold safe_path. rewrite <- prefix_slash. rewrite !orb_false_iff, negb_false_iff. split.
  - intros (A & B). split; [split; [|exact A]|].
    + destruct s; [discriminate|reflexivity].
    + destruct (dotdot s) eqn:D; [|reflexivity]. apply dotdot_iff in D. destruct D as (a & b & E). exfalso. exact (B a b E).
  - intros ((_ & A) & B). split; [exact A|]. intros a b E. assert (dotdot s = true) by (apply dotdot_iff; eauto). congruence.
Qed.

Lemma domain_nonempty s : domain s -> s <> "".
Proof.
  intros (ls & t & N & F & T & _ & ->) E. rewrite concat_last in E by exact N. apply app_empty in E. destruct E as (_ & E). discriminate.
Qed.

Section H.
Variable do_ : fwd -> option tresp.
Variable nets : list ipnet.

Lemma handler_ok r : acceptable r ->
  exists f, sent r f /\ ODoHproxyHandler do_ nets r = ([f], relay (do_ f)).
Proof.
  intros (M & C & D & DL & S & SL & B).
  exists (Fwd "https" (p_host r) (p_path r) (p_ctype r) (firstn (N.to_nat 4096) (p_body r))). split.
  - unfold sent. cbn [f_scheme f_host f_path f_ctype f_body]. repeat split; auto.
    exists (skipn (N.to_nat 4096) (p_body r)). split; [symmetry; apply firstn_skipn|]. rewrite firstn_length. split; [lia|].
    destruct (Nat.le_gt_cases (length (p_body r)) (N.to_nat 4096)) as [L|L]; [left; apply skipn_all2; exact L|right; lia].
  - unfold ODoHproxyHandler. rewrite M, C. change (String.eqb ODOH_CONTENT_TYPE "") with false.
    change ("application/oblivious-dns-message") with ODOH_CONTENT_TYPE. rewrite !String.eqb_refl. cbn [negb orb].
    change (String.eqb ODOH_CONTENT_TYPE "") with false. cbn [orb].
    destruct (String.eqb_spec (p_host r) "") as [E|_]; [exfalso; exact (domain_nonempty _ D E)|].
    apply host_iff in D. rewrite D. apply N.leb_le in DL. rewrite N.ltb_antisym, DL. cbn [negb orb].
    apply safe_iff in S. apply orb_false_iff in S. destruct S as (S & S3). apply orb_false_iff in S. destruct S as (S1 & S2).
    apply N.leb_le in SL. rewrite S1, S2, S3, N.ltb_antisym, SL. cbn [negb orb].
    assert (R : read4096 r = Some (firstn (N.to_nat 4096) (p_body r))).
    { unfold read4096. destruct B as [->|L]; [reflexivity|]. rewrite N.ltb_antisym. apply N.leb_le in L. rewrite L. cbn. rewrite andb_false_r. reflexivity. }
    rewrite R. reflexivity.
Qed.
Lemma handler_no r : ~ acceptable r -> exists n, ODoHproxyHandler do_ nets r = ([], PStatus n) /\ (n = 400 \/ n = 405)%N.
Proof.
  intros NA. unfold ODoHproxyHandler.
  destruct (String.eqb_spec (p_method r) "POST") as [M|_]; [|eexists; split; [reflexivity|auto]]. cbn [negb].
  destruct (String.eqb (p_ctype r) "" || negb (String.eqb (p_ctype r) ODOH_CONTENT_TYPE)) eqn:C; [eexists; split; [reflexivity|auto]|].
  apply orb_false_iff in C. destruct C as (_ & C). apply negb_false_iff, String.eqb_eq in C.
  destruct (String.eqb (p_host r) "") eqn:H0; [eexists; split; [reflexivity|auto]|].
  destruct (N.ltb 253 (N.of_nat (String.length (p_host r))) || negb (matchString host_regex (p_host r))) eqn:H; [eexists; split; [reflexivity|auto]|].
  apply orb_false_iff in H. destruct H as (HL & H). apply negb_false_iff, host_iff in H. apply N.ltb_ge in HL.
  destruct (_ || _ || _ || _) eqn:P; [eexists; split; [reflexivity|auto]|].
  apply orb_false_iff in P. destruct P as (P & P4). apply orb_false_iff in P. destruct P as (P & P3). apply orb_false_iff in P. destruct P as (P1 & P2).
  apply N.ltb_ge in P2. unfold read4096. destruct (p_broken r && _) eqn:B; [eexists; split; [reflexivity|auto]|].
  exfalso. apply NA. repeat split; auto.
  - apply safe_iff. rewrite P1, P3, P4. reflexivity.
  - apply safe_iff. rewrite P1, P3, P4. reflexivity.
  - apply andb_false_iff in B. destruct B as [B|B]; [left; exact B|right; apply N.ltb_ge; exact B].
Qed.
End H.

(** What a domain is not *)
Lemma all_concat (P : ascii -> Prop) l : P "."%char -> Forall (chars P) l -> chars P (String.concat "." l).
Proof.
  intros D F. induction F as [|x l X F IH]; [intros i c G; destruct i; discriminate|].
  assert (App : forall a b, chars P a -> chars P b -> chars P (a ++ b)).
  { intros a b A B. induction a as [|d a IHa]; cbn; [exact B|]. intros [|i] c G; cbn in G.
    - injection G as <-. apply (A O). reflexivity.
    - assert (A' : chars P a) by (intros j e J; apply (A (S j) e J)). exact (IHa A' i c G). }
  destruct l as [|y l]; [exact X|]. rewrite concat_cons by discriminate. apply App; [exact X|]. apply (App "."); [|exact IH].
  intros [|i] c G; cbn in G; [injection G as <-; exact D|destruct i; discriminate].
Qed.
Lemma domain_chars s : domain s -> chars (fun c => ldh c \/ c = "."%char) s.
Proof.
  intros (ls & t & N & F & T & L & ->). apply all_concat; [right; reflexivity|]. apply Forall_app. split.
  - eapply Forall_impl; [|exact F]. intros l (_ & C) i c G. left. exact (C i c G).
  - constructor; [|constructor]. intros i c G. left. left. exact (L i c G).
Qed.
Lemma domain_last s : domain s -> exists a c, s = a ++ String c "" /\ letter c.
Proof.
  intros (ls & t & N & F & T & L & ->). rewrite concat_last by exact N.
  assert (X : forall u, u <> "" -> chars letter u -> exists a c, u = a ++ String c "" /\ letter c).
  { clear. induction u as [|d u IH]; intros NE C; [congruence|]. destruct u as [|e u].
    - exists "", d. split; [reflexivity|]. apply (C O). reflexivity.
    - destruct IH as (a & c & E & K); [discriminate|intros i c G; exact (C (S i) c G)|]. exists (String d a), c. rewrite E. auto. }
  destruct (X t) as (a & c & E & K); [intros ->; cbn in T; lia|exact L|].
  exists (String.concat "." ls ++ "." ++ a), c. rewrite E, !app_asc. auto.
Qed.
Lemma relay_body o ct b cut : relay o = PBody ct b cut <->
  ct = "application/oblivious-dns-message" /\ exists t, o = Some t /\ t_status t = 200%N /\ t_ctype t = "application/oblivious-dns-message" /\ t_body t = b /\ t_broken t = cut.
Proof.
  unfold relay, http_error. split.
  - destruct o as [t|]; [|discriminate]. destruct (N.eqb_spec (t_status t) 200) as [S|S]; cbn [negb]; [|destruct (N.ltb _ _); discriminate].
    destruct (String.eqb_spec (t_ctype t) ODOH_CONTENT_TYPE) as [C|C]; cbn [negb]; [|discriminate].
    intros E. injection E as <- <- <-. split; [reflexivity|]. exists t. auto.
  - intros (-> & t & -> & S & C & <- & <-). rewrite S, C. reflexivity.
Qed.
Lemma relay_status o : (o = None -> relay o = PStatus 500) /\
  (forall t, o = Some t -> t_status t <> 200%N -> (100 <= t_status t)%N -> relay o = PStatus (t_status t)) /\
  (forall t, o = Some t -> t_status t = 200%N -> t_ctype t <> "application/oblivious-dns-message" -> relay o = PStatus 502).
Proof.
  split; [intros ->; reflexivity|]. split.
  - intros t -> A B. unfold relay, http_error. destruct (N.eqb_spec (t_status t) 200); [congruence|]. cbn [negb].
    destruct (N.ltb_spec (t_status t) 100); [lia|reflexivity].
  - intros t -> A B. unfold relay. rewrite A. cbn [N.eqb Pos.eqb negb]. destruct (String.eqb_spec (t_ctype t) ODOH_CONTENT_TYPE) as [E|E]; [exfalso; exact (B E)|reflexivity].
Qed.
Lemma relay_panic : exists t, relay (Some t) = PPanic.
Proof. exists (TResp 99 "" [] false). reflexivity. Qed.
Lemma handler_open do_ nets nets' r : ODoHproxyHandler do_ nets r = ODoHproxyHandler do_ nets' r.
Proof. reflexivity. Qed.
Lemma handler_truncated do_ nets r : acceptable r -> (4096 < N.of_nat (length (p_body r)))%N ->
  exists f, ODoHproxyHandler do_ nets r = ([f], relay (do_ f)) /\ N.of_nat (length (f_body f)) = 4096%N /\ f_body f <> p_body r.
Proof.
  intros A L. destruct (handler_ok do_ nets r A) as (f & (_ & _ & _ & _ & rest & E & B & C) & H). exists f. split; [exact H|].
  assert (X : N.of_nat (length (f_body f)) = 4096%N).
  { destruct C as [->|C]; [|exact C]. rewrite app_nil_r in E. rewrite E in L. lia. }
  split; [exact X|]. intros E2. rewrite E2 in X. lia.
Qed.
Lemma modes mode path :
  (route (handlers mode) path = Some HProxy <-> path = "/proxy" /\ (mode = "dual" \/ mode = "proxy")) /\
  (route (handlers mode) path = Some HQuery <-> path = "/dns-query" /\ (mode = "dual" \/ mode = "target" \/ mode = "")) /\
  (route (handlers mode) path = Some HConfig <-> path = "/.well-known/odohconfigs" /\ (mode = "dual" \/ mode = "target" \/ mode = "")).
Proof.
  unfold handlers, ODOH_PROXY_PATH, ODOH_QUERY_PATH, ODOH_CONFIG_PATH.
  destruct (String.eqb_spec mode "dual") as [->|D]; [|destruct (String.eqb_spec mode "proxy") as [->|P];
    [|destruct (String.eqb_spec mode "target") as [->|T]; [|destruct (String.eqb_spec mode "") as [->|E]]]]; cbn [orb route];
  repeat match goal with |- context [String.eqb ?a path] => destruct (String.eqb_spec a path) as [<-|] end;
  repeat split; intros; try discriminate;
  repeat match goal with X : _ /\ _ |- _ => destruct X | X : _ \/ _ |- _ => destruct X end; subst; try discriminate; try congruence; auto.
Qed.
Lemma acceptable_demo : acceptable (PReq [192; 0; 2; 1]%N "POST" "application/oblivious-dns-message" "a.example" "/dns-query" [1; 2; 3]%N false).
Proof.
  unfold acceptable. cbn [p_method p_ctype p_host p_path p_body p_broken]. repeat split; try reflexivity; try (vm_compute; discriminate).
  - apply host_iff. reflexivity.
  - exists "dns-query". reflexivity.
  - apply safe_iff. reflexivity.
  - left. reflexivity.
Qed.
