(** List loaders *)
From Verif Require Import Base Bytes Loader_model Loader_spec.
From Coq Require Import ZArith ZifyBool ZifyNat ZifyN.
Local Open Scope N_scope.

Lemma snoc_inv {A} (l : list A) : l = [] \/ exists r x, l = r ++ [x].
Proof. destruct l as [|y l] using rev_ind; [left; reflexivity|right; eauto]. Qed.
Lemma dropCR_cr r : dropCR (r ++ [13]) = r.
Proof. unfold dropCR. rewrite rev_app_distr. cbn. apply rev_involutive. Qed.
Lemma dropCR_id r : (forall y, r <> y ++ [13]) -> dropCR r = r.
Proof.
  intros H. unfold dropCR. destruct (rev r) as [|c l] eqn:E; [reflexivity|]. assert (R : r = rev l ++ [c]) by (rewrite <- (rev_involutive r), E; reflexivity).
  destruct (N.eq_dec c 13) as [->|NE]; [destruct (H _ R)|]. destruct c as [|[[[[| |]|[| |]|]|[[| |]|[| |]|]|]|[[[| |]|[| |]|]|[[| |]|[| |]|]|]|]]; try reflexivity; destruct NE; reflexivity.
Qed.
Lemma dropCR_cases r : (r = dropCR r /\ forall y, r <> y ++ [13]) \/ r = dropCR r ++ [13].
Proof.
  destruct (snoc_inv r) as [->|(l & c & ->)]; [left; split; [reflexivity|]; intros y E; destruct y; discriminate E|]. destruct (N.eq_dec c 13) as [->|NE].
  - right. rewrite dropCR_cr. reflexivity.
  - left. assert (H : forall y, l ++ [c] <> y ++ [13]) by (intros y E; apply app_inj_tail in E; destruct E; contradiction). rewrite dropCR_id by exact H. auto.
Qed.

(** The lines without a limit *)
Fixpoint unscan (acc : list N) (l : list N) : list rule :=
  match l with
  | [] => match acc with [] => [] | _ => [dropCR (rev acc)] end
  | c :: l' => if c =? 10 then dropCR (rev acc) :: unscan [] l' else unscan (c :: acc) l'
  end.
Lemma unscan_line x : forall acc rest, ~ In 10 x -> unscan acc (x ++ 10 :: rest) = dropCR (rev acc ++ x) :: unscan [] rest.
Proof.
  induction x as [|c x IH]; intros acc rest H; cbn; [rewrite app_nil_r; reflexivity|]. destruct (N.eqb_spec c 10) as [->|NE]; [destruct H; left; reflexivity|].
  rewrite IH by (intros X; apply H; right; exact X). cbn. rewrite <- app_assoc. reflexivity.
Qed.
Lemma unscan_last x : forall acc, ~ In 10 x -> rev acc ++ x <> [] -> unscan acc x = [dropCR (rev acc ++ x)].
Proof.
  induction x as [|c x IH]; intros acc H NE; cbn; [rewrite app_nil_r in *; destruct acc; [destruct NE; reflexivity|reflexivity]|]. destruct (N.eqb_spec c 10) as [->|N1]; [destruct H; left; reflexivity|].
  rewrite IH; [cbn; rewrite <- app_assoc; reflexivity|intros X; apply H; right; exact X|cbn; rewrite <- app_assoc; exact NE].
Qed.
Lemma lines_unscan data rs : lines data rs -> rs = unscan [] data.
Proof.
  induction 1 as [|x r NI NE C|r e rest rs NI E C _ IH]; [reflexivity| |].
  - rewrite unscan_last by (cbn; assumption). cbn. destruct C as [[-> H]| ->]; [rewrite dropCR_id by exact H|rewrite dropCR_cr]; reflexivity.
  - destruct E; cbn [app].
    + rewrite unscan_line by exact NI. cbn. rewrite dropCR_id by (apply C; reflexivity). rewrite <- IH. reflexivity.
    + assert (A : r ++ 13 :: 10 :: rest = (r ++ [13]) ++ 10 :: rest) by (rewrite <- app_assoc; reflexivity). rewrite A, unscan_line; [cbn; rewrite dropCR_cr, <- IH; reflexivity|].
      intros X. apply in_app_or in X. destruct X as [X|[X|[]]]; [contradiction|discriminate X].
Qed.
Lemma in_dropCR c x : In c (dropCR x) -> In c x.
Proof. destruct (dropCR_cases x) as [[E _]|E]; intros H; rewrite E; [exact H|apply in_or_app; left; exact H]. Qed.
Lemma unscan_lines l : forall acc, ~ In 10 acc -> lines (rev acc ++ l) (unscan acc l).
Proof.
  induction l as [|c l IH]; intros acc H; cbn.
  - rewrite app_nil_r. destruct acc as [|a acc]; [constructor|]. apply lines_last; [intros X; apply H; apply in_rev, X|intros X; apply (f_equal (@length N)) in X; rewrite rev_length in X; discriminate X|].
    destruct (dropCR_cases (rev (a :: acc))) as [[E1 E2]|E]; [left; split; [exact E1|exact E2]|right; exact E].
  - destruct (N.eqb_spec c 10) as [->|NE].
    + assert (NI : ~ In 10 (dropCR (rev acc))) by (intros X; apply in_dropCR in X; apply H, in_rev, X). specialize (IH [] ltac:(intros [])). cbn in IH.
      destruct (dropCR_cases (rev acc)) as [[E1 E2]|E].
      * rewrite E1 at 1. change (dropCR (rev acc) ++ 10 :: l) with (dropCR (rev acc) ++ [10] ++ l). apply lines_cons; [exact NI|constructor| |exact IH]. intros _ y. rewrite <- E1. apply E2.
      * rewrite E at 1. rewrite <- app_assoc. change (dropCR (rev acc) ++ [13] ++ 10 :: l) with (dropCR (rev acc) ++ [13; 10] ++ l). apply lines_cons; [exact NI|constructor|discriminate|exact IH].
    + specialize (IH (c :: acc) ltac:(intros [X|X]; [congruence|contradiction])). cbn in IH. rewrite <- app_assoc in IH. exact IH.
Qed.
Lemma scan_unscan max tog l : forall acc n, snd (scan max tog acc n l) = false -> fst (scan max tog acc n l) = unscan acc l.
Proof.
  induction l as [|c l IH]; intros acc n; cbn; [reflexivity|]. destruct (N.eqb_spec c 10) as [->|NE]; [cbn; intros H; rewrite (IH _ _ H); reflexivity|].
  destruct (n + 1 <? max); [apply IH|]. destruct l as [|c' l]; [|discriminate]. destruct tog; [|discriminate]. reflexivity.
Qed.
Lemma block_len {A} (a x b u : list A) : u = a ++ x ++ b -> (length x <= length u)%nat.
Proof. intros ->. rewrite !app_length. lia. Qed.
Lemma scan_fits max tog l : forall acc n, n = N.of_nat (length acc) -> n < max -> ~ In 10 acc -> snd (scan max tog acc n l) = false <-> fits max tog (rev acc ++ l).
Proof.
  induction l as [|c l IH]; intros acc n EN LT NI; cbn [scan].
  - cbn. rewrite app_nil_r. split; [|reflexivity]. intros _ a x b E _. left. apply block_len in E. rewrite rev_length in E. lia.
  - destruct (N.eqb_spec c 10) as [->|NE]; cbn [snd].
    + rewrite (IH [] 0) by (cbn; auto; lia). cbn [rev app]. split.
      * intros F a x b E NX. apply app_eq_app in E. destruct E as (l2 & [[E1 E2]|[E1 E2]]).
        -- left. pose proof (rev_length acc) as RL. apply app_eq_app in E2 as (l3 & [[E3 E4]|[E3 E4]]).
           ++ destruct l3 as [|y l3]; [rewrite app_nil_r in E3; subst x; pose proof (block_len a l2 [] (rev acc)) as B; rewrite app_nil_r in B; specialize (B E1); lia|]. cbn in E4. injection E4 as <- _. subst x. destruct NX. apply in_or_app. right. left. reflexivity.
           ++ subst l2. pose proof (block_len a x l3 (rev acc) E1) as B. lia.
        -- destruct l2 as [|y l2]; cbn in E2; [destruct x as [|z x]; [left; cbn; lia|]; cbn in E2; injection E2 as E2 _; subst z; destruct NX; left; reflexivity|]. injection E2 as <- E2. destruct (F l2 x b E2 NX) as [H|H]; auto.
      * intros F a x b E NX. apply (F (rev acc ++ 10 :: a) x b); [rewrite E, <- app_assoc; reflexivity|exact NX].
    + destruct (N.ltb_spec (n + 1) max) as [L|L].
      * rewrite (IH (c :: acc) (n + 1)); [cbn; rewrite <- app_assoc; reflexivity|cbn; lia|exact L|]. intros [X|X]; [congruence|contradiction].
      * assert (NX : ~ In 10 (rev acc ++ [c])) by (intros X; apply in_app_or in X; destruct X as [X|[X|[]]]; [apply NI, in_rev, X|congruence]).
        assert (LX : N.of_nat (length (rev acc ++ [c])) = max) by (rewrite app_length, rev_length; cbn; lia).
        destruct l as [|c' l].
        -- split.
           ++ intros H. destruct tog; [|discriminate H]. intros a x b E N2. pose proof (block_len _ _ _ _ E) as B. destruct (N.eq_dec (N.of_nat (length x)) max) as [E1|N1]; [|left; lia]. right. split; [reflexivity|]. split; [|exact E1].
              apply (f_equal (@length N)) in E. rewrite !app_length in *. destruct b; [reflexivity|cbn in *; lia].
           ++ intros F. destruct (F [] (rev acc ++ [c]) [] ltac:(rewrite app_nil_r; reflexivity) NX) as [H|(-> & _)]; [lia|reflexivity].
        -- split; [intros H; discriminate H|]. intros F. destruct (F [] (rev acc ++ [c]) (c' :: l) ltac:(cbn; rewrite <- app_assoc; reflexivity) NX) as [H|(_ & H & _)]; [lia|discriminate H].
Qed.
Lemma reads_iff s rs : reads s rs <-> read_rules s = (rs, false).
Proof.
  unfold reads, read_rules. assert (F := scan_fits maxScanTokenSize (s_together s) (s_data s) [] 0 eq_refl eq_refl ltac:(intros [])). cbn [rev app] in F. unfold maxScanTokenSize in *.
  pose proof (scan_unscan 65536 (s_together s) (s_data s) [] 0) as U. destruct (scan 65536 (s_together s) [] 0 (s_data s)) as [l b]. cbn [fst snd] in *. split.
  - intros (E & X & L). apply F in X. subst b. rewrite E. rewrite (U eq_refl), (lines_unscan _ _ L). reflexivity.
  - intros [= -> E]. destruct b; [discriminate E|]. split; [exact E|]. split; [apply F; reflexivity|]. rewrite (U eq_refl). apply (unscan_lines _ []). intros [].
Qed.
Lemma reads_unique s a b : reads s a -> reads s b -> a = b.
Proof. rewrite !reads_iff. congruence. Qed.

(** One load *)
Lemma disk_iff o l w rs : fromDisk l = true -> cacheDir o = true -> loadFromDisk w = Some rs <-> from_cache o true w rs.
Proof.
  intros _ C. unfold loadFromDisk, from_cache. split.
  - destruct (w_disk w) as [s|]; [|discriminate]. intros H. repeat (split; [auto|]). exists s. split; [reflexivity|]. apply reads_iff. destruct (read_rules s) as [r b]. cbn in H. destruct b; [discriminate H|]. injection H as ->. reflexivity.
  - intros (_ & _ & s & -> & R). apply reads_iff in R. rewrite R. reflexivity.
Qed.
Lemma download_ok o w ev rules : download o w = (ev, rules, false) -> from_server w rules.
Proof.
  unfold download, from_server. destruct (w_http w) as [[st body]|]; [|discriminate]. destruct ((st <? 200) || (299 <? st)) eqn:E; [discriminate|]. destruct (read_rules body) as [rs b] eqn:RR. cbn [fst snd]. intros [= _ -> ->]. exists st, body. split; [reflexivity|]. split; [lia|].
  apply reads_iff, RR.
Qed.
Lemma download_fail o w ev rules : download o w = (ev, rules, true) -> forall rs, ~ from_server w rs.
Proof.
  unfold download, from_server. intros H rs (st & body & E & R & D). rewrite E in H. destruct ((st <? 200) || (299 <? st)) eqn:E1; [lia|]. apply reads_iff in D. rewrite D in H. discriminate H.
Qed.
Lemma body_outcome o first l w ev rules err : fromDisk l = first && cacheDir o -> load_body o l w = (ev, rules, err) -> outcome o first w (if err then None else Some rules).
Proof.
  intros FD H. unfold load_body in H. rewrite FD in H. destruct first; cbn [andb] in H.
  - destruct (cacheDir o) eqn:C.
    + pose proof (fun rs => disk_iff o (Loader true []) w rs eq_refl C) as DI. destruct (loadFromDisk w) as [rs|] eqn:E.
      * injection H as _ <- <-. cbn. left. apply DI. reflexivity.
      * destruct (download o w) as [[ev' r'] e'] eqn:D. injection H as _ -> ->. assert (NC : forall rs, ~ from_cache o true w rs) by (intros rs X; apply DI in X; discriminate X).
        destruct err; cbn; [intros rs [X|[_ X]]; [exact (NC _ X)|exact (download_fail _ _ _ _ D _ X)]|right; split; [exact NC|exact (download_ok _ _ _ _ D)]].
    + assert (NC : forall rs, ~ from_cache o true w rs) by (intros rs (_ & X & _); congruence). destruct err; cbn; [intros rs [X|[_ X]]; [exact (NC _ X)|exact (download_fail _ _ _ _ H _ X)]|right; split; [exact NC|exact (download_ok _ _ _ _ H)]].
  - assert (NC : forall rs, ~ from_cache o false w rs) by (intros rs (X & _); discriminate X). destruct err; cbn; [intros rs [X|[_ X]]; [exact (NC _ X)|exact (download_fail _ _ _ _ H _ X)]|right; split; [exact NC|exact (download_ok _ _ _ _ H)]].
Qed.
Lemma obtained_unique o first w a b : obtained o first w a -> obtained o first w b -> a = b.
Proof.
  intros [(H1 & H2 & s & E & R)|[N (st & body & E & S & R)]] [(H1' & H2' & s' & E' & R')|[N' (st' & body' & E' & S' & R')]].
  - rewrite E in E'. injection E' as <-. exact (reads_unique _ _ _ R R').
  - destruct (N' a). repeat (split; eauto).
  - destruct (N b). repeat (split; eauto).
  - rewrite E in E'. injection E' as <- <-. exact (reads_unique _ _ _ R R').
Qed.
Lemma outcome_unique o first w x y : outcome o first w x -> outcome o first w y -> x = y.
Proof. destruct x as [a|], y as [b|]; cbn; intros H H'; [f_equal; exact (obtained_unique _ _ _ _ _ H H')|destruct (H' _ H)|destruct (H _ H')|reflexivity]. Qed.

(** Histories: the outcomes of the attempts, the first of which may use the cache file *)
Lemma history o ws : forall k w x l first outs, fromDisk l = first && cacheDir o -> length outs = k -> nth_error ws k = Some w ->
  (forall j wj xj, nth_error ws j = Some wj -> nth_error (outs ++ [x]) j = Some xj -> outcome o (first && Nat.eqb j 0) wj xj) ->
  exists r ev, nth_error (loads o l ws) k = Some (r, ev) /\
    if allowFailure o then r = (latest (outs ++ [x]) (lastSuccess l), false) else match x with Some rs => r = (rs, false) | None => snd r = true end.
Proof.
  induction ws as [|w0 ws IH]; intros k w x l first outs FD EL EK H; [destruct k; discriminate EK|]. cbn [loads]. unfold load. destruct (load_body o l w0) as [[ev rules] err] eqn:B.
  pose proof (body_outcome o first l w0 ev rules err FD B) as BO. destruct outs as [|o0 outs].
  - cbn in EL. subst k. cbn in EK. injection EK as ->. pose proof (H 0%nat w x eq_refl eq_refl) as OX. cbn in OX. rewrite andb_true_r in OX. pose proof (outcome_unique _ _ _ _ _ OX BO) as ->.
    unfold finish. destruct err; cbn [andb].
    + destruct (allowFailure o); eexists; eexists; (split; [reflexivity|]); reflexivity.
    + destruct (allowFailure o); eexists; eexists; (split; [reflexivity|]); reflexivity.
  - cbn in EL. destruct k as [|k]; [discriminate EL|]. injection EL as EL. cbn in EK. pose proof (H 0%nat w0 o0 eq_refl eq_refl) as OX. cbn in OX. rewrite andb_true_r in OX. pose proof (outcome_unique _ _ _ _ _ OX BO) as ->.
    destruct (finish (allowFailure o) (lastSuccess l) rules err) as [[r' e'] last] eqn:F.
    destruct (IH k w x (Loader false last) false outs eq_refl EL EK) as (r & ev' & E & R).
    { intros j wj xj E1 E2. specialize (H (S j) wj xj E1 E2). rewrite andb_false_r in H. exact H. }
    exists r, ev'. split; [exact E|]. destruct (allowFailure o) eqn:A; [|exact R]. rewrite R. cbn [lastSuccess app latest]. unfold finish in F. destruct err; cbn in F; injection F as _ _ <-; reflexivity.
Qed.
(** Cache file *)
Lemma first_load o ws k r ev l : nth_error (loads o l ws) k = Some (r, ev) -> exists w l', nth_error ws k = Some w /\ fromDisk l' = (if Nat.eqb k 0 then fromDisk l else false) /\ fst (load o l' w) = (r, ev).
Proof.
  revert k l. induction ws as [|w ws IH]; intros k l E; [destruct k; discriminate E|]. cbn in E. destruct (load o l w) as [[r0 ev0] l0] eqn:L. destruct k as [|k]; cbn in E.
  - injection E as -> ->. exists w, l. rewrite L. auto.
  - destruct (IH k l0 E) as (w' & l' & E1 & E2 & E3). exists w', l'. split; [exact E1|]. split; [|exact E3]. rewrite E2. unfold load in L. destruct (load_body o l w) as [[a b] c]. destruct (finish (allowFailure o) (lastSuccess l) b c) as [[d e] f]. injection L as _ _ <-. destruct (Nat.eqb k 0); reflexivity.
Qed.
Lemma download_events o w : exists ev rules err, download o w = (Request :: ev, rules, err) /\
  (forall e, In e ev -> exists d, e = WriteCache d) /\ forall d, In (WriteCache d) ev <-> cacheDir o = true /\ w_write w = true /\ from_server w rules /\ d = cache_data rules /\ err = false.
Proof.
  destruct (download o w) as [[ev rules] err] eqn:D. pose proof (download_ok o w) as OK. pose proof (download_fail o w) as FA. rewrite D in OK, FA. unfold download in D. destruct (w_http w) as [[st body]|] eqn:EH.
  - destruct ((st <? 200) || (299 <? st)).
    + injection D as <- <- <-. exists [], [], true. split; [reflexivity|]. split; [intros e []|]. intros d. split; [intros []|]. intros (_ & _ & _ & _ & X). discriminate X.
    + destruct (read_rules body) as [rs b] eqn:RR. cbn [fst snd] in *. injection D as <- <- <-. eexists _, _, _. split; [reflexivity|]. destruct b; cbn [negb andb].
      * split; [intros e []|]. intros d. split; [intros []|]. intros (_ & _ & _ & _ & X). discriminate X.
      * pose proof (OK _ _ eq_refl) as FS. destruct (cacheDir o) eqn:C, (w_write w) eqn:WW; cbn [andb]; (split; [first [solve [intros e []]|intros e [<-|[]]; eauto]|]); intros d; (split; [try solve [intros []]|try (intros (X & Y & _); discriminate)]).
        -- intros [[= <-]|[]]. auto.
        -- intros (_ & _ & _ & -> & _). left. reflexivity.
  - injection D as <- <- <-. exists [], [], true. split; [reflexivity|]. split; [intros e []|]. intros d. split; [intros []|]. intros (_ & _ & _ & _ & X). discriminate X.
Qed.
Lemma load_events o l w r ev l' : load o l w = (r, ev, l') -> exists rules err, load_body o l w = (ev, rules, err) /\ (err = false -> r = (rules, false)).
Proof.
  unfold load. destruct (load_body o l w) as [[a b] c]. unfold finish. destruct (c && allowFailure o) eqn:E; intros [= <- <- _]; exists b, c; (split; [reflexivity|]); intros ->; [discriminate E|reflexivity].
Qed.
Lemma reads_cache o ws k r ev : nth_error (loads o (newHTTPLoader o) ws) k = Some (r, ev) -> In ReadCache ev <-> k = O /\ cacheDir o = true.
Proof.
  intros E. destruct (first_load _ _ _ _ _ _ E) as (w & l & E1 & FD & L). destruct (load o l w) as [[r1 ev1] l1] eqn:LL. injection L as -> ->. destruct (load_events _ _ _ _ _ _ LL) as (rules & err & B & _). unfold load_body in B. rewrite FD in B. cbn [newHTTPLoader fromDisk] in B.
  destruct (download_events o w) as (ev2 & r2 & e2 & D & ONLY & _). rewrite D in B.
  assert (NR : ~ In ReadCache (Request :: ev2)) by (intros [X|X]; [discriminate X|]; destruct (ONLY _ X) as (d & Y); discriminate Y).
  destruct k as [|k]; cbn [Nat.eqb] in B; [destruct (cacheDir o)|].
  - destruct (loadFromDisk w); injection B as <- _ _; split; auto; left; reflexivity.
  - injection B as <- _ _. split; [contradiction|intros [_ X]; discriminate X].
  - injection B as <- _ _. split; [contradiction|intros [X _]; discriminate X].
Qed.
Lemma writes_cache o ws k r ev w d : nth_error ws k = Some w -> nth_error (loads o (newHTTPLoader o) ws) k = Some (r, ev) ->
  In (WriteCache d) ev <-> exists rules, cacheDir o = true /\ w_write w = true /\ (forall rs, ~ from_cache o (Nat.eqb k 0) w rs) /\ from_server w rules /\ d = cache_data rules /\ r = (rules, false).
Proof.
  intros EW E. destruct (first_load _ _ _ _ _ _ E) as (w' & l & E1 & FD & L). rewrite EW in E1. injection E1 as <-. destruct (load o l w) as [[r1 ev1] l1] eqn:LL. injection L as -> ->.
  destruct (load_events _ _ _ _ _ _ LL) as (rules & err & B & RR). unfold load_body in B. rewrite FD in B. cbn [newHTTPLoader fromDisk] in B.
  destruct (download_events o w) as (ev2 & r2 & e2 & D & ONLY & WR). 
  assert (G : forall first, (forall rs, ~ from_cache o first w rs) -> (rules, err) = (r2, e2) -> In (WriteCache d) (Request :: ev2) <->
     exists rules, cacheDir o = true /\ w_write w = true /\ (forall rs, ~ from_cache o first w rs) /\ from_server w rules /\ d = cache_data rules /\ r = (rules, false)).
  { intros first NC [= -> ->]. split.
    - intros [X|X]; [discriminate X|]. apply WR in X. destruct X as (C & W & S & -> & ->). exists r2. auto 10.
    - intros (rs & C & W & _ & S & -> & R). right. apply WR. assert (e2 = false) as -> by (destruct e2; [destruct (download_fail _ _ _ _ D _ S)|reflexivity]).
      pose proof (download_ok _ _ _ _ D) as S2. assert (rs = r2) as ->; [|auto]. destruct S as (st & b & E1 & _ & R1), S2 as (st2 & b2 & E2 & _ & R2). rewrite E1 in E2. injection E2 as <- <-. exact (reads_unique _ _ _ R1 R2). }
  rewrite D in B. destruct k as [|k]; cbn [Nat.eqb] in B |- *; [assert (CC : cacheDir o = true \/ cacheDir o = false) by (destruct (cacheDir o); auto); destruct CC as [C|C]; rewrite C in B|].
  - pose proof (fun rs => disk_iff o (Loader true []) w rs eq_refl C) as DI. destruct (loadFromDisk w) as [rs|] eqn:LD.
    + injection B as <- _ _. split; [intros [X|[]]; discriminate X|]. intros (rs' & _ & _ & X & _). destruct (X rs). apply DI. reflexivity.
    + injection B as <- <- <-. rewrite <- (G true); [|intros rs X; apply DI in X; discriminate X|reflexivity]. cbn. split; [intros [X|X]; [discriminate X|exact X]|auto].
  - injection B as <- <- <-. apply G; [intros rs (_ & X & _); congruence|reflexivity].
  - injection B as <- <- <-. apply G; [intros rs (X & _); discriminate X|reflexivity].
Qed.
(** Restart *)
Lemma cache_lines rs : clean rs -> lines (cache_data rs) rs.
Proof. induction 1 as [|r rs (H1 & H2 & H3) _ IH]; [constructor|]. change (cache_data (r :: rs)) with (r ++ [10] ++ cache_data rs). apply lines_cons; [exact H1|constructor|auto|exact IH]. Qed.
Lemma cache_fits rs tog : clean rs -> fits 65536 tog (cache_data rs).
Proof.
  induction 1 as [|r rs (H1 & H2 & H3) _ IH]; intros a x b E NX.
  - symmetry in E. apply app_eq_nil in E as [_ E]. apply app_eq_nil in E as [-> _]. left. reflexivity.
  - change (cache_data (r :: rs)) with (r ++ [10] ++ cache_data rs) in E. apply app_eq_app in E. destruct E as (l2 & [[E1 E2]|[E1 E2]]).
    + left. apply app_eq_app in E2 as (l3 & [[E3 E4]|[E3 E4]]).
      * destruct l3 as [|y l3]; [rewrite app_nil_r in E3; subst x; pose proof (block_len a l2 [] r) as B; rewrite app_nil_r in B; specialize (B E1); clear -B H3; lia|]. cbn in E4. injection E4 as <- _. subst x. destruct NX. apply in_or_app. right. left. reflexivity.
      * subst l2. pose proof (block_len a x l3 r E1) as B. clear -B H3; lia.
    + destruct l2 as [|y l2]; cbn in E2; [destruct x as [|z x]; [left; reflexivity|]; cbn in E2; injection E2 as E2 _; subst z; destruct NX; left; reflexivity|]. injection E2 as <- E2. exact (IH l2 x b E2 NX).
Qed.
Lemma restart rs tog : clean rs -> reads (Source (cache_data rs) false tog) rs.
Proof. intros C. split; [reflexivity|]. split; [apply cache_fits, C|apply cache_lines, C]. Qed.
Lemma no_newline data rs : lines data rs -> Forall (fun r => ~ In 10 r) rs.
Proof.
  induction 1 as [|x r NI _ C|r e rest rs NI _ _ _ IH]; [constructor| |constructor; assumption]. constructor; [|constructor]. destruct C as [[<- _]| ->]; [exact NI|]. intros X. apply NI, in_or_app. left. exact X.
Qed.

(** Local files *)
Lemma file_history allow fs : forall k f x last outs, length outs = k -> nth_error fs k = Some f ->
  (forall j fj xj, nth_error fs j = Some fj -> nth_error (outs ++ [x]) j = Some xj -> file_outcome fj xj) ->
  exists r, nth_error (file_loads allow last fs) k = Some r /\ if allow then r = (latest (outs ++ [x]) last, false) else match x with Some rs => r = (rs, false) | None => snd r = true end.
Proof.
  assert (U : forall f x rules err, file_outcome f x -> match f with None => ([], true) | Some s => read_rules s end = (rules, err) -> x = if err then None else Some rules).
  { intros f x rules err O E. destruct f as [s|]; [|injection E as <- <-; destruct x as [rs|]; [destruct O as (s & X & _); discriminate X|reflexivity]].
    destruct x as [rs|]; cbn in O.
    - destruct O as (s' & [= <-] & R). apply reads_iff in R. rewrite R in E. injection E as <- <-. reflexivity.
    - destruct err; [reflexivity|]. apply reads_iff in E. destruct (O s rules eq_refl E). }
  induction fs as [|f0 fs IH]; intros k f x last outs EL EK H; [destruct k; discriminate EK|]. cbn [file_loads]. unfold file_load. destruct (match f0 with None => ([], true) | Some s => read_rules s end) as [rules err] eqn:B.
  destruct outs as [|o0 outs].
  - cbn in EL. subst k. cbn in EK. injection EK as ->. rewrite (U f x rules err (H O f x eq_refl eq_refl) B). unfold finish. destruct err, allow; cbn; eexists; (split; [reflexivity|]); reflexivity.
  - cbn in EL. destruct k as [|k]; [discriminate EL|]. injection EL as EL. cbn in EK. pose proof (U f0 o0 rules err (H O f0 o0 eq_refl eq_refl) B) as ->. destruct (finish allow last rules err) as [[r' e'] last'] eqn:F.
    destruct (IH k f x last' outs EL EK) as (r & E & R); [intros j fj xj E1 E2; exact (H (S j) fj xj E1 E2)|]. exists r. split; [exact E|]. destruct allow; [|exact R]. rewrite R. cbn [app latest]. unfold finish in F. destruct err; cbn in F; injection F as _ _ <-; reflexivity.
Qed.

Lemma history_new o ws k w x outs : length outs = k -> nth_error ws k = Some w ->
  (forall j wj xj, nth_error ws j = Some wj -> nth_error (outs ++ [x]) j = Some xj -> outcome o (Nat.eqb j 0) wj xj) ->
  exists r ev, nth_error (loads o (newHTTPLoader o) ws) k = Some (r, ev) /\
    if allowFailure o then r = (latest (outs ++ [x]) [], false) else match x with Some rs => r = (rs, false) | None => snd r = true end.
Proof. intros EL EK H. exact (history o ws k w x (newHTTPLoader o) true outs eq_refl EL EK H). Qed.
Lemma file_history_new allow fs k f x outs : length outs = k -> nth_error fs k = Some f ->
  (forall j fj xj, nth_error fs j = Some fj -> nth_error (outs ++ [x]) j = Some xj -> file_outcome fj xj) ->
  exists r, nth_error (file_loads allow [] fs) k = Some r /\ if allow then r = (latest (outs ++ [x]) [], false) else match x with Some rs => r = (rs, false) | None => snd r = true end.
Proof. apply file_history. Qed.
Lemma restart_load o ws k rs err ev d w tog : nth_error (loads o (newHTTPLoader o) ws) k = Some ((rs, err), ev) -> In (WriteCache d) ev -> clean rs ->
  w_disk w = Some (Source d false tog) -> fst (load o (newHTTPLoader o) w) = ((rs, false), [ReadCache]).
Proof.
  intros E IW C DW. destruct (nth_error ws k) as [w0|] eqn:EW; [|destruct (first_load _ _ _ _ _ _ E) as (w' & _ & X & _); congruence]. apply (writes_cache _ _ _ _ _ _ _ EW E) in IW. destruct IW as (rules & CD & _ & _ & _ & -> & [= -> ->]).
  unfold load, load_body, loadFromDisk. cbn [newHTTPLoader fromDisk]. rewrite CD, DW. pose proof (restart rules tog C) as R. apply reads_iff in R. rewrite R. reflexivity.
Qed.
Lemma restart_refuted : exists o w w' rs, fst (load o (newHTTPLoader o) w) = ((rs, false), [ReadCache; Request; WriteCache (cache_data rs)]) /\
  w_disk w' = Some (Source (cache_data rs) false false) /\ fst (fst (fst (load o (newHTTPLoader o) w'))) <> rs.
Proof.
  exists (Options true true), (World None (Some (200, Source [97; 13; 13; 10] false false)) true), (World (Some (Source [97; 13; 10] false false)) None true), [[97; 13]].
  split; [reflexivity|]. split; [reflexivity|]. vm_compute. discriminate.
Qed.
