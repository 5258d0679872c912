(** Proofs about ModCfg_model.v: the groups that ask one resolver *)
From Verif Require Import Base Bytes Dns Cidr_spec Net_spec Modifiers_model Modifiers_spec Modifiers_proofs Modifiers_proofs2 Modifiers_proofs3 Static_model Static_spec Static_proofs
  RateLimit_model RateLimit_spec ListCfg_model Blocklist_model ModCfg_model ModCfg_spec.
From Verif Require Dns64_model Dns64_spec Dns64_proofs FastestTcp_model FastestTcp_spec FastestTcp_proofs.
Local Open Scope N_scope.

Section P.
Context {R : Type}.
Variable w : world R.
Notation lookups := (lookup_all R (w_resolvers w)).

Lemma lookup_several names : forall l, lookups names = Some l <-> Forall2 (fun n r => w_resolvers w n = Some r) names l.
Proof.
  induction names as [|n names IH]; intros l; cbn [lookup_all]; [split; [intros H; injection H as <-; constructor|intros H; inversion H; reflexivity]|].
  destruct (w_resolvers w n) as [r|] eqn:E.
  - split.
    + destruct (lookups names) as [l'|]; [|discriminate]. cbn. intros H. injection H as <-. constructor; [exact E|]. apply IH. reflexivity.
    + intros H. inversion H as [|? r' ? l' H1 H2]; subst. apply IH in H2. rewrite H2. rewrite E in H1. injection H1 as ->. reflexivity.
  - split; [discriminate|]. intros H. inversion H as [|? r' ? l' H1 H2]; subst. rewrite E in H1. discriminate H1.
Qed.
Lemma lookup_only g up : lookups (s_resolvers g) = Some [up] <-> only w g up.
Proof.
  rewrite lookup_several. unfold only. split.
  - intros H. inversion H as [|n r names l H1 H2 E]; subst. inversion H2; subst. exists n. split; [reflexivity|exact H1].
  - intros (n & -> & H). constructor; [exact H|constructor].
Qed.

Lemma one_some gr f e : one R gr f = Some e -> exists up, gr = [up] /\ f up = Some e.
Proof. destruct gr as [|up [|]]; try discriminate. cbn. intros H. exists up. split; [reflexivity|exact H]. Qed.
Lemma opt_some {A B} (f : A -> B) o e : option_map f o = Some e -> exists x, o = Some x /\ e = f x.
Proof. destruct o as [x|]; [|discriminate]. cbn. intros H. injection H as <-. exists x. split; reflexivity. Qed.
Ltac open := unfold made, make; let gr := fresh "gr" in let L := fresh "L" in destruct (lookups (s_resolvers _)) as [gr|] eqn:L; [|discriminate]; cbn [String.eqb Ascii.eqb Bool.eqb].
Ltac single := open; intros H; apply one_some in H; destruct H as (up & -> & H); match goal with L : _ = Some [up] |- _ => apply lookup_only in L end.

Lemma made_ttl g e : made w "ttl-modifier" g = Some e -> exists up sel, only w g up /\ select_of (s_ttlSelect g) = Some sel /\ e = ETTL R up sel (s_ttlMin g) (s_ttlMax g).
Proof. single. apply opt_some in H. destruct H as (sel & H & ->). exists up, sel. auto. Qed.
Lemma made_ecs g e : made w "ecs-modifier" g = Some e -> exists up f, only w g up /\ ecs_of g = Some f /\ e = EECS R up f.
Proof. single. apply opt_some in H. destruct H as (f & H & ->). exists up, f. auto. Qed.
Lemma made_edns0 g e : made w "edns0-modifier" g = Some e -> exists up f, only w g up /\ edns0_of g = Some f /\ e = EEDNS0 R up f.
Proof. single. apply opt_some in H. destruct H as (f & H & ->). exists up, f. auto. Qed.
Lemma made_replace g e : made w "replace" g = Some e -> exists up fs, only w g up /\ compile_all (w_regexp w) (s_replace g) = Some fs /\ e = EReplace R up fs.
Proof. single. apply opt_some in H. destruct H as (f & H & ->). exists up, f. auto. Qed.
Lemma made_truncate g e : made w "truncate-retry" g = Some e -> exists up retry, only w g up /\ w_resolvers w (s_retryResolver g) = Some retry /\ e = ETruncate R up retry.
Proof. single. apply opt_some in H. destruct H as (f & H & ->). exists up, f. auto. Qed.
Lemma made_dns64 g e : made w "dns64" g = Some e -> exists up ps, only w g up /\ Dns64_model.newDNS64 (w_addr w) (s_dns64Prefix g) = Some ps /\ e = EDNS64 R up ps.
Proof. single. apply opt_some in H. destruct H as (f & H & ->). exists up, f. auto. Qed.
Lemma made_minimize g e : made w "response-minimize" g = Some e -> exists up, only w g up /\ e = EMinimize R up.
Proof. single. injection H as <-. exists up. auto. Qed.
Lemma made_collapse g e : made w "response-collapse" g = Some e -> exists up, only w g up /\ e = ECollapse R up (s_nullRCode g).
Proof. single. injection H as <-. exists up. auto. Qed.
Lemma made_fastest_tcp g e : made w "fastest-tcp" g = Some e -> exists up, only w g up /\ e = EFastestTCP R up (port_text (s_port g)) (s_waitAll g) (s_successTTLMin g).
Proof. single. injection H as <-. exists up. auto. Qed.
Lemma made_rate g e : made w "rate-limiter" g = Some e -> exists up, only w g up /\
  e = ERate R up (RlOpts (s_requests g) (or_default (s_window g) 60) (or_default (s_prefix4 g) 24) (or_default (s_prefix6 g) 56)) (w_resolvers w (s_limitResolver g)).
Proof. single. injection H as <-. exists up. auto. Qed.
Lemma made_drop g e : made w "drop" g = Some e -> e = EDrop R.
Proof. open. intros H. injection H as <-. reflexivity. Qed.

(** ** ttl-modifier *)
Lemma select_words x s : select_of x = Some (Some s) ->
  (s = SelLowest /\ x = "lowest"%string) \/ (s = SelHighest /\ x = "highest"%string) \/ (s = SelAverage /\ x = "average"%string) \/
  (s = SelFirst /\ x = "first"%string) \/ (s = SelLast /\ x = "last"%string) \/ (s = SelRandom /\ x = "random"%string).
Proof.
  unfold select_of. intros H.
  repeat match type of H with (if String.eqb x ?l then _ else _) = _ => destruct (String.eqb_spec x l) as [->|] end; try discriminate H; injection H as <-; tauto.
Qed.
Lemma select_none x : select_of x = Some None -> x = ""%string.
Proof.
  unfold select_of. do 6 (destruct (String.eqb x _); [discriminate|]). destruct (String.eqb_spec x ""); [auto|discriminate].
Qed.
Lemma forall2_same {A} (P : A -> A -> Prop) l l' : Forall2 P l l' -> (forall x y, In x l -> P x y -> y = x) -> l' = l.
Proof.
  induction 1 as [|x y l l' H F IH]; intros S; [reflexivity|]. f_equal; [apply S; [left; reflexivity|exact H]|]. apply IH. intros a b Ha. apply S. right. exact Ha.
Qed.
Lemma mapped_none f a a' : records a = [] -> ttl_mapped f a a' -> a' = a.
Proof.
  intros Z (an & n & ex & HA & HN & HX & ->).
  assert (S : forall r r', In r (m_answer a ++ m_ns a ++ m_extra a) -> ttl_is (f (rr_ttl r)) r r' -> r' = r).
  { intros r r' Hin [[_ ->]|[Hd _]]; [reflexivity|]. exfalso. assert (I : In r (records a)).
    { unfold records. apply filter_In. split; [exact Hin|]. unfold data_rr. destruct (rr_data r); try reflexivity. edestruct Hd; reflexivity. }
    rewrite Z in I. destruct I. }
  rewrite (forall2_same _ _ _ HA), (forall2_same _ _ _ HN), (forall2_same _ _ _ HX); [destruct a; reflexivity| | |];
    intros x y Hx; apply S; repeat (rewrite in_app_iff); tauto.
Qed.
Lemma cfg_ttl g e : s_ttlMin g <= 4294967295 -> s_ttlMax g <= 4294967295 -> (forall n, 0 < n -> w_random w n < n) -> made w "ttl-modifier" g = Some e ->
  exists up, only w g up /\ forall q ci, exists r, does w e q ci = Some ([(up, q)], r) /\
  match w_answer w up q ci with
  | Ans a => small_ttls a -> exists a', r = Ans a' /\ ttl_says g a a'
  | r' => r = r'
  end.
Proof.
  intros LO HI RN M. apply made_ttl in M. destruct M as (up & sel & O & S & ->). exists up. split; [exact O|]. intros q ci. eexists. split; [reflexivity|].
  destruct (w_answer w up q ci) as [a| |]; [|reflexivity..]. intros Sm. destruct sel as [s|].
  - destruct (ttl_some (w_random w) s (s_ttlMin g) (s_ttlMax g) a LO HI Sm RN) as (a' & E & H). exists a'. split; [exact E|].
    apply select_words in S. split; [|split].
    + intros Em. exfalso. rewrite Em in S. repeat (destruct S as [S|S]; [destruct S as [_ S]; discriminate S|]). destruct S as [_ S]. discriminate S.
    + intros _ NE. destruct H as [[Hz _]|(v & Hv & Hm)]; [contradiction|]. exists v. split; [|exact Hm].
      destruct S as [[-> ->]|[[-> ->]|[[-> ->]|[[-> ->]|[[-> ->]|[-> ->]]]]]]; constructor; exact Hv.
    + intros Z. destruct H as [[_ H]|(v & _ & Hm)]; [exact H|]. exact (mapped_none _ _ _ Z Hm).
  - apply select_none in S. destruct (ttl_none (w_random w) (s_ttlMin g) (s_ttlMax g) a LO HI Sm) as (a' & E & H). exists a'. split; [exact E|].
    split; [|split]; [intros _; exact H|intros N; contradiction|]. intros Z. exact (mapped_none _ _ _ Z H).
Qed.

(** ** ecs-modifier, edns0-modifier *)
Lemma cfg_ecs g e : s_ecsPrefix4 g <= 32 -> s_ecsPrefix6 g <= 128 -> made w "ecs-modifier" g = Some e ->
  exists up, only w g up /\ forall q ci, opt_wf q -> exists q', does w e q ci = Some ([(up, q')], w_answer w up q' ci) /\ ecs_says g ci q q' (s_ecsOp g).
Proof.
  intros P4 P6 M. apply made_ecs in M. destruct M as (up & f & O & S & ->). exists up. split; [exact O|]. intros q ci WF. eexists. split; [reflexivity|].
  unfold ecs_of in S. cbn [fst modify_query].
  repeat match type of S with (if String.eqb _ ?l then _ else _) = _ => destruct (String.eqb_spec (s_ecsOp g) l) as [->|] end; try discriminate S; injection S as <-; cbn [option_map].
  - constructor. intros OK. exact (ecs_add (s_ecsAddress g) (s_ecsPrefix4 g) (s_ecsPrefix6 g) ci q WF P4 P6 OK).
  - destruct (ecs_if_missing (s_ecsAddress g) (s_ecsPrefix4 g) (s_ecsPrefix6 g) ci q WF) as [H1 H2]. constructor; [exact H1|].
    intros N. rewrite (H2 N). intros OK. exact (ecs_add (s_ecsAddress g) (s_ecsPrefix4 g) (s_ecsPrefix6 g) ci q WF P4 P6 OK).
  - constructor. exact (ecs_delete_removed q WF).
  - constructor. exact (ecs_privacy (s_ecsPrefix4 g) (s_ecsPrefix6 g) q WF P4 P6).
  - constructor. reflexivity.
Qed.
Lemma cfg_edns0 g e : made w "edns0-modifier" g = Some e ->
  exists up, only w g up /\ forall q ci, opt_wf q -> exists q', does w e q ci = Some ([(up, q')], w_answer w up q' ci) /\ edns0_says g q q' (s_edns0Op g).
Proof.
  intros M. apply made_edns0 in M. destruct M as (up & f & O & S & ->). exists up. split; [exact O|]. intros q ci WF. eexists. split; [reflexivity|].
  unfold edns0_of in S. cbn [fst modify_query].
  repeat match type of S with (if String.eqb _ ?l then _ else _) = _ => destruct (String.eqb_spec (s_edns0Op g) l) as [->|] end; try discriminate S; injection S as <-; cbn [option_map]; constructor.
  - exact (add_replaced (s_edns0Code g) (s_edns0Data g) q WF).
  - exact (delete_removed (s_edns0Code g) q WF).
  - reflexivity.
Qed.

(** ** replace *)
Lemma compile_applied l : forall fs n n', compile_all (w_regexp w) l = Some fs -> rewritten (w_regexp w) l n n' -> applied fs n n'.
Proof.
  induction l as [|[from to] l IH]; intros fs n n' C H; inversion H; subst; cbn [compile_all] in C.
  - injection C as <-. constructor.
  - match goal with E : w_regexp w from = Some ?f |- _ => rewrite E in C end. apply opt_some in C. destruct C as (fs' & C & ->). constructor. apply IH; assumption.
Qed.
Lemma compile_total l : forall fs n, compile_all (w_regexp w) l = Some fs -> exists n', rewritten (w_regexp w) l n n'.
Proof.
  induction l as [|[from to] l IH]; intros fs n C; cbn [compile_all] in C; [exists n; constructor|].
  destruct (w_regexp w from) as [f|] eqn:E; [|discriminate]. apply opt_some in C. destruct C as (fs' & C & ->).
  destruct (IH _ (f to n) C) as (n' & H). exists n'. econstructor; eassumption.
Qed.
Lemma cfg_replace g e : made w "replace" g = Some e ->
  exists up, only w g up /\ forall q ci x l, m_question q = x :: l -> exists new sent r,
    rewritten (w_regexp w) (s_replace g) (q_name x) new /\ does w e q ci = Some ([(up, sent)], r) /\
    (new = q_name x -> sent = q /\ r = w_answer w up q ci) /\
    (new <> q_name x -> asks new q sent /\
      match w_answer w up sent ci with
      | Ans a => exists a', r = Ans a' /\ renamed (q_name x) new a a'
      | r' => r = r'
      end).
Proof.
  intros M. apply made_replace in M. destruct M as (up & fs & O & C & ->). exists up. split; [exact O|]. intros q ci x l Hq.
  destruct (compile_total _ _ (q_name x) C) as (new & Rw). pose proof (compile_applied _ _ _ _ C Rw) as Ap.
  destruct (replace_spec fs (fun q => w_answer w up q ci) q x l new Hq Ap) as (sent & r & E & H1 & H2). exists new, sent, r. split; [exact Rw|].
  split; [unfold does; cbn [ask]; rewrite E; reflexivity|]. split; assumption.
Qed.

(** ** truncate-retry, response-minimize, response-collapse, drop *)
Lemma cfg_truncate g e : made w "truncate-retry" g = Some e ->
  exists up retry, only w g up /\ w_resolvers w (s_retryResolver g) = Some retry /\ forall q ci,
    match w_answer w up q ci with
    | Ans a => if m_tc a then does w e q ci = Some ([(up, q); (retry, q)], w_answer w retry q ci) else does w e q ci = Some ([(up, q)], Ans a)
    | r => does w e q ci = Some ([(up, q)], r)
    end.
Proof.
  intros M. apply made_truncate in M. destruct M as (up & retry & O & T & ->). exists up, retry. split; [exact O|]. split; [exact T|]. intros q ci.
  pose proof (truncate_spec (fun q => w_answer w up q ci) (fun q => w_answer w retry q ci) q) as H. unfold does. cbn [ask]. cbv beta in H.
  destruct (w_answer w up q ci) as [a| |]; [|rewrite H; reflexivity..]. destruct (m_tc a); rewrite H; reflexivity.
Qed.
Lemma cfg_minimize g e : made w "response-minimize" g = Some e ->
  exists up, only w g up /\ forall q ci, exists r, does w e q ci = Some ([(up, q)], r) /\
  match w_answer w up q ci with Ans a => r = Ans (set_ns [] (set_extra [] a)) | r' => r = r' end.
Proof.
  intros M. apply made_minimize in M. destruct M as (up & O & ->). exists up. split; [exact O|]. intros q ci. eexists. split; [reflexivity|].
  destruct (w_answer w up q ci); reflexivity.
Qed.
Lemma cfg_collapse g e : made w "response-collapse" g = Some e ->
  exists up, only w g up /\ forall q ci x l, m_question q = x :: l -> exists r, does w e q ci = Some ([(up, q)], r) /\
    match w_answer w up q ci with
    | Ans a => (m_rcode a <> 0 -> r = Ans a) /\
               (m_rcode a = 0 -> exists an, collapsed x (m_answer a) an /\
                  (an <> [] -> r = Ans (set_answer an a)) /\
                  (an = [] -> exists b, r = Ans b /\ bare_reply q (s_nullRCode g) b))
    | r' => r = r'
    end.
Proof.
  intros M. apply made_collapse in M. destruct M as (up & O & ->). exists up. split; [exact O|]. intros q ci x l Hq.
  destruct (collapse_spec (s_nullRCode g) (fun q => w_answer w up q ci) q x l Hq) as (r & E & H). exists r. split; [|exact H]. unfold does. cbn [ask]. rewrite E. reflexivity.
Qed.
Lemma cfg_drop g e q ci : made w "drop" g = Some e -> does w e q ci = Some ([], Drop).
Proof. intros M. apply made_drop in M. subst e. reflexivity. Qed.
End P.
