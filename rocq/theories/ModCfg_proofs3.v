(** Proofs about ModCfg_model.v: groups of several resolvers, and which groups start *)
From Verif Require Import Base Bytes Dns Cidr_spec Net_spec Static_model Static_proofs ListCfg_model ListCfg_proofs4 Blocklist_model Groups_model Groups_spec Groups_proofs Groups_proofs2 Groups_proofs3 Groups_proofs4 Groups_proofs5 Groups_proofs6
  ModCfg_model ModCfg_spec ModCfg_proofs ModCfg_proofs2.
From Verif Require Dns64_model Dns64_spec Dns64_proofs.
From Coq Require Import QArith Lqa.
Local Open Scope nat_scope.

Section P.
Context {R : Type}.
Variable w : world R.
Notation lookups := (lookup_all R (w_resolvers w)).
Ltac open := unfold made, make; let gr := fresh "gr" in let L := fresh "L" in destruct (lookups (s_resolvers _)) as [gr|] eqn:L; [|discriminate]; cbn [String.eqb Ascii.eqb Bool.eqb].
Ltac group := open; intros H; injection H as <-; match goal with L : _ = Some ?gr |- _ => apply (lookup_several w) in L; exists gr; split; [exact L|]; split; [reflexivity|] end.

Lemma seconds_ns n : short n -> seconds n = ns n.
Proof. unfold short, seconds, ns. intros H. rewrite Z.mod_small by lia. lia. Qed.
Lemma reset_in_force g : short (match s_resetAfter g with None => 60%Z | Some n => n end) -> reset_of g = reset g.
Proof. intros H. unfold reset_of, reset. exact (seconds_ns _ H). Qed.


Lemma cfg_failrotate g e : made w "fail-rotate" g = Some e -> exists gr, several w g gr /\ members R e = gr /\ exists good, accepts g good /\
  forall l s t r, failrotate_run R e l = Some s -> g_pc s t = Returned r ->
  finished (length gr) good t r (mine t l) /\ forall k, k < length gr -> always_good good k l -> usable (s_servfailError g) (s_emptyError g) r.
Proof.
  group. exists (good_reply (s_servfailError g) (s_emptyError g)). split; [intros r; apply good_reply_spec|]. intros l s t r H Hr. cbn [failrotate_run] in H. split.
  - exact (proj1 (eq_ind (g_pc s t) (fun p => thread_ok (length gr) (good_reply (s_servfailError g) (s_emptyError g)) t p (mine t l) /\ (0 < length gr -> g_active s < length gr)) (fr_thread _ _ l s t H) _ Hr)).
  - intros k Hk A. apply good_reply_spec. exact (fr_good_answer _ _ k Hk l s t r H A Hr).
Qed.
Lemma cfg_failback g e : made w "fail-back" g = Some e -> short (match s_resetAfter g with None => 60%Z | Some n => n end) -> exists gr, several w g gr /\ members R e = gr /\ exists good, accepts g good /\
  (forall l s t r, failback_run R e l = Some s -> fb_pc s t = Returned r -> finished (length gr) good t r (mine t l)) /\
  (forall k l1 l2 s t r, k < length gr -> reset g <> 0%Z -> failback_run R e (l1 ++ Call t :: l2) = Some s -> always_good good k (l1 ++ Call t :: l2) ->
     ~ In TimerFire l2 -> fb_pc s t = Returned r -> usable (s_servfailError g) (s_emptyError g) r) /\
  (forall l s t r, reset g = 0%Z -> failback_run R e l = Some s -> fb_pc s t = Returned r -> exists k, sents (mine t l) = seq 0 k) /\
  (forall l s, (0 <= reset g)%Z -> failback_run R e l = Some s -> fb_active s <> 0 -> ~ (exists t i r, fb_pc s t = Signalling i r) -> fb_token s = false -> fb_timer s <> Starting ->
     exists d s', (0 <= d <= reset g)%Z /\ failback_run R e (l ++ [Pass d; TimerFire]) = Some s' /\ fb_active s' = 0) /\
  (forall l1 ev l2 s, ev = Consume \/ ev = TimerStart -> ~ In Consume l2 -> failback_run R e (l1 ++ ev :: l2 ++ [TimerFire]) = Some s -> (reset g <= elapsed l2)%Z).
Proof.
  intros M Sh. revert M. group. exists (good_reply (s_servfailError g) (s_emptyError g)). split; [intros r; apply good_reply_spec|].
  cbn [failback_run]. rewrite (reset_in_force g Sh). set (good := good_reply (s_servfailError g) (s_emptyError g)). set (n := length gr). repeat split.
  - intros l s t r H Hr.
    exact (proj1 (eq_ind (fb_pc s t) (fun p => thread_ok n good t p (mine t l) /\ (0 < n -> fb_active s < n)) (fb_thread n good (reset g) l s t H) _ Hr)).
  - intros k l1 l2 s t r Hk Hz H A NT Hr. apply good_reply_spec. exact (fb_good_answer n good (reset g) k Hk l1 l2 s t r Hz H A NT Hr).
  - intros l s t r Hz H Hr. rewrite Hz in H. exact (eq_ind (fb_pc s t) (fun p => order_ok p (sents (mine t l))) (fb_order n good 0%Z l s t eq_refl H) _ Hr).
  - intros l s Hz H Ha Hs Ht Hm. destruct (fb_returns n good (reset g) l s Hz H Ha Hs Ht Hm) as (d & s' & Hd & H' & Ha'). exists d, s'. split; [exact Hd|]. split; [|exact Ha'].
    rewrite exec_app, H. exact H'.
  - intros l1 ev l2 s Hev NC H. exact (fb_not_early n good (reset g) l1 ev l2 s Hev NC H).
Qed.
Lemma cfg_random g e : made w "random" g = Some e -> short (match s_resetAfter g with None => 60%Z | Some n => n end) -> exists gr, several w g gr /\ members R e = gr /\ reset_period R e = Some (reset g) /\
  exists good, accepts g good /\ forall l s t r, random_run R e l = Some s -> r_pc s t = Returned r ->
  rnd_finished (seq 0 (length gr)) good t r l /\ forall k, k < length gr -> always_good good k l -> usable (s_servfailError g) (s_emptyError g) r.
Proof.
  intros M Sh. revert M. group. split; [cbn [reset_period]; f_equal; exact (reset_in_force g Sh)|].
  exists (good_reply (s_servfailError g) (s_emptyError g)). split; [intros r; apply good_reply_spec|]. intros l s t r H Hr. cbn [random_run] in H. split.
  - exact (eq_ind (r_pc s t) (fun p => rthread_ok _ _ t p l) (rnd_thread _ _ l s t H) _ Hr).
  - intros k Hk A. apply good_reply_spec. refine (rnd_good_answer _ _ k l s t r _ H A Hr). apply in_seq. lia.
Qed.
Lemma cfg_balance g e : made w "load-balance" g = Some e -> exists gr, several w g gr /\ members R e = gr /\ exists good, accepts g good /\
  forall picks up, (forall k rem, rem <> [] -> picks k rem < length rem) -> exists asked r, balance R e picks up = Some (asked, r) /\ lb_finished (length gr) good up asked r.
Proof.
  group. exists (good_reply (s_servfailError g) (s_emptyError g)). split; [intros r; apply good_reply_spec|]. intros picks up H. cbn [balance].
  exact (lb_spec (good_reply (s_servfailError g) (s_emptyError g)) eq_refl picks up H (length gr) eq_refl).
Qed.
Lemma cfg_members g e : (made w "round-robin" g = Some e -> exists gr, several w g gr /\ e = ERoundRobin R gr) /\
  (made w "fastest" g = Some e -> exists gr, several w g gr /\ e = EFastest R gr) /\
  (made w "request-dedup" g = Some e -> exists up, only w g up /\ e = EDedup R up).
Proof.
  split; [|split]; open; intros H.
  - injection H as <-. exists gr. split; [apply (lookup_several w); exact L|reflexivity].
  - injection H as <-. exists gr. split; [apply (lookup_several w); exact L|reflexivity].
  - apply one_some in H. destruct H as (up & -> & H). injection H as <-. exists up. split; [apply (lookup_only w); exact L|reflexivity].
Qed.

(** ** Which groups can be made *)
Lemma compile_ok l : compile_all (w_regexp w) l <> None <-> Forall (fun x => w_regexp w (fst x) <> None) l.
Proof.
  induction l as [|[a b] l IH]; cbn [compile_all]; [split; [constructor|discriminate]|]. rewrite Forall_cons_iff, <- IH. cbn [fst].
  destruct (w_regexp w a); [|tauto]. destruct (compile_all (w_regexp w) l); cbn; split; intros; try split; try discriminate; tauto.
Qed.
Lemma templates_ok l : templates (w_template w) l <> None <-> Forall (fun t => w_template w t <> None) l.
Proof.
  induction l as [|a l IH]; cbn [templates]; [split; [constructor|discriminate]|]. rewrite Forall_cons_iff, <- IH.
  destruct (w_template w a); [|tauto]. destruct (templates (w_template w) l); cbn; split; intros; try split; try discriminate; tauto.
Qed.
Lemma records_ok l : forall h, read_records (w_record w) h l <> None <-> Forall (fun t => w_record w t <> None) l.
Proof.
  induction l as [|a l IH]; intros h; cbn [read_records]; [split; [constructor|discriminate]|]. rewrite Forall_cons_iff.
  destruct (w_record w a) as [[r|]|]; [| |tauto].
  - rewrite <- (IH (h ++ [r])). destruct (read_records _ _ l) as [[? ?]|]; cbn; split; intros; try split; try discriminate; tauto.
  - rewrite <- (IH h). destruct (read_records _ _ l) as [[? ?]|]; cbn; split; intros; try split; try discriminate; tauto.
Qed.
Lemma static_ok h a n x rc tc t : newStatic (w_record w) h a n x rc tc t <> None <-> Forall (fun t => w_record w t <> None) (a ++ n ++ x).
Proof.
  rewrite !Forall_app. unfold newStatic. rewrite <- (records_ok a h). destruct (read_records (w_record w) h a) as [[h1 ?]|]; [|tauto].
  rewrite <- (records_ok n h1). destruct (read_records (w_record w) h1 n) as [[h2 ?]|]; [|tauto].
  rewrite <- (records_ok x h2). destruct (read_records (w_record w) h2 x) as [[h3 ?]|]; [|tauto]. repeat split; discriminate.
Qed.
Lemma ede_ok g : newEDE (w_text w) (s_edeCode g) (s_edeText g) <> None <-> (s_edeCode g = 0%N /\ s_edeText g = ""%string) \/ w_text w (s_edeText g) <> None.
Proof.
  unfold newEDE. destruct (N.eqb_spec (s_edeCode g) 0) as [E|E]; destruct (String.eqb_spec (s_edeText g) ""%string) as [E'|E']; cbn [andb];
    destruct (w_text w (s_edeText g)) eqn:T; cbn; split; intros H; try discriminate; try tauto; try (right; discriminate); destruct H as [[? ?]|H]; congruence.
Qed.
Ltac words x := unfold x; repeat match goal with |- context [String.eqb ?a ?b] => destruct (String.eqb_spec a b) as [->|] end; cbn [In]; split; intros; try discriminate; try tauto; exfalso; intuition congruence.
Lemma select_ok x : select_of x <> None <-> In x [""; "lowest"; "highest"; "average"; "first"; "last"; "random"]%string.
Proof. words select_of. Qed.
Lemma ecs_ok g : ecs_of g <> None <-> In (s_ecsOp g) [""; "add"; "add-if-missing"; "delete"; "privacy"]%string.
Proof. unfold ecs_of. generalize (s_ecsOp g). intros x. words ecs_of. Qed.
Lemma edns0_ok g : edns0_of g <> None <-> In (s_edns0Op g) [""; "add"; "delete"]%string.
Proof. unfold edns0_of. generalize (s_edns0Op g). intros x. words edns0_of. Qed.
Lemma dns64_ok g : parse_ok (w_addr w) -> (Dns64_model.newDNS64 (w_addr w) (s_dns64Prefix g) <> None <-> Forall (fun s => exists n, Dns64_spec.prefix_text (w_addr w) s n) (prefixes g)).
Proof.
  intros PO. rewrite prefixes_eff. split.
  - intros H. destruct (Dns64_model.newDNS64 _ _) as [ps|] eqn:E; [|contradiction]. destruct (Dns64_proofs.prefixes_nets _ _ _ PO E) as (nets & F & _).
    clear -F. induction F; constructor; [eexists; eassumption|assumption].
  - intros F N. apply (Dns64_proofs.prefixes_accepted _ _ PO) in N. destruct N as (s & I & N). rewrite Forall_forall in F. destruct (F s I) as (n & P). exact (N n P).
Qed.

Lemma map_ok {A B} (f : A -> B) o : option_map f o <> None <-> o <> None.
Proof. destruct o; cbn; split; congruence. Qed.
Lemma one_ok g gr f (P : Prop) : lookups (s_resolvers g) = Some gr -> (forall up, f up <> None <-> P) -> (one R gr f <> None <-> (exists r, only w g r) /\ P).
Proof.
  intros L F. split.
  - intros H. destruct (one R gr f) eqn:E; [|contradiction]. apply one_some in E. destruct E as (up & -> & E). split; [exists up; apply lookup_only; exact L|]. apply (F up). congruence.
  - intros ((r & O) & HP). apply lookup_only in O. rewrite O in L. injection L as <-. cbn [one]. apply (F r). exact HP.
Qed.
Lemma static_made g : match newEDE (w_text w) (s_edeCode g) (s_edeText g) with
  | None => None
  | Some t => option_map (fun p => EStatic R (fst p) (snd p)) (newStatic (w_record w) [] (s_answer g) (s_ns g) (s_extra g) (s_rcode g) (s_truncate g) t)
  end <> None <-> newEDE (w_text w) (s_edeCode g) (s_edeText g) <> None /\ newStatic (w_record w) [] (s_answer g) (s_ns g) (s_extra g) (s_rcode g) (s_truncate g) None <> None.
Proof. destruct (newEDE _ _ _) as [t|]; [|tauto]. rewrite map_ok, !static_ok. split; [intros H; split; [discriminate|exact H]|tauto]. Qed.
Lemma template_made g : match newEDE (w_text w) (s_edeCode g) (s_edeText g), templates (w_template w) (s_answer g), templates (w_template w) (s_ns g), templates (w_template w) (s_extra g) with
  | Some t, Some a, Some n, Some x => Some (ETemplate R a n x (s_rcode g) (s_truncate g) t)
  | _, _, _, _ => None
  end <> None <-> newEDE (w_text w) (s_edeCode g) (s_edeText g) <> None /\ templates (w_template w) (s_answer g ++ s_ns g ++ s_extra g) <> None.
Proof.
  rewrite (templates_ok (_ ++ _)), !Forall_app, <- !templates_ok. destruct (newEDE _ _ _); [|tauto].
  destruct (templates _ (s_answer g)); [|tauto]. destruct (templates _ (s_ns g)); [|tauto]. destruct (templates _ (s_extra g)); [|tauto]. repeat split; discriminate.
Qed.
Lemma started type g : parse_ok (w_addr w) -> (made w type g <> None <-> startable w type g).
Proof.
  intros PO. unfold startable. cbv zeta. destruct (lookups (s_resolvers g)) as [gr|] eqn:L.
  2:{ unfold made, make. rewrite L. assert (A : ~ exists l, several w g l) by (intros (l & S); apply (lookup_several w) in S; congruence).
      assert (U : ~ exists r, only w g r) by (intros (r & S); apply (lookup_only w) in S; congruence). clear L. split; [congruence|]. intros H. decompose [or and] H; contradiction. }
  assert (A : exists l, several w g l) by (exists gr; apply (lookup_several w); exact L).
  pose proof (one_ok g gr) as O.
  assert (T : forall x : element R, Some x <> None <-> True) by (split; [auto|discriminate]).
  rewrite <- select_ok, <- ecs_ok, <- edns0_ok, <- compile_ok, <- (dns64_ok g PO), <- ede_ok, <- (static_ok [] _ _ _ (s_rcode g) (s_truncate g) None), <- templates_ok.
  unfold made, make. rewrite L.
  repeat match goal with |- context [String.eqb type ?b] => destruct (String.eqb_spec type b) as [->|?] end.
  all: try (rewrite (O _ True L) by (intros; apply T)).
  all: try (rewrite (O _ _ L) by (intros; apply map_ok)).
  all: try rewrite static_made.
  all: try rewrite template_made.
  all: try rewrite T.
  all: cbn [In].
  all: try (split; [intros H; try contradiction; tauto | intros H; decompose [or and] H; clear H; try discriminate; try congruence; tauto]).
Qed.

(** ** failure-penalty *)
Lemma stats_snoc gr p sf em l x : statistics R (ELoadBalance R gr p sf em) (l ++ [x]) =
  option_map (fun s => if fst x then updateOnSuccess (inject_Z (snd x)) s else updateOnFailure (Qmake p 1000) (inject_Z (snd x)) s) (statistics R (ELoadBalance R gr p sf em) l).
Proof. cbn [statistics option_map]. rewrite fold_left_app. reflexivity. Qed.
Lemma counted p u s : (0 < cnt (updateOnFailure p u s)) /\ (0 < fails (updateOnFailure p u s)).
Proof. unfold updateOnFailure. cbv zeta. destruct (Nat.eqb _ 0); [cbn; lia|]. destruct (_ || _); cbn; lia. Qed.
Lemma Qltb_true a b : Qltb a b = true <-> (a < b)%Q.
Proof.
  unfold Qltb. rewrite negb_true_iff. split; intros H.
  - apply Qnot_le_lt. intros X. apply Qle_bool_iff in X. congruence.
  - destruct (Qle_bool b a) eqn:E; [|reflexivity]. apply Qle_bool_iff in E. lra.
Qed.
Lemma Qltb_false a b : Qltb a b = false <-> (b <= a)%Q.
Proof. unfold Qltb. rewrite negb_false_iff. apply Qle_bool_iff. Qed.
Lemma cfg_penalty g e l u1 u2 s1 s : made w "load-balance" g = Some e -> (0 < s_failurePenalty g)%Z -> short (s_failurePenalty g) ->
  statistics R e (l ++ [(false, u1)]) = Some s1 -> statistics R e (l ++ [(false, u1)] ++ [(false, u2)]) = Some s ->
  (ema s == (1 # 10) * inject_Z (s_failurePenalty g * 1000000) + (9 # 10) * ema s1)%Q.
Proof.
  open. intros H P Sh. injection H as <-. rewrite app_assoc, !stats_snoc. destruct (statistics R _ l) as [s0|]; [|discriminate]. cbn [option_map fst snd].
  intros H1 H2. injection H1 as <-. injection H2 as <-. rewrite (seconds_ns _ Sh). unfold ns. set (p := s_failurePenalty g) in *.
  set (s1 := updateOnFailure _ (inject_Z u1) s0). destruct (counted (Qmake (p * 1000000000) 1000) (inject_Z u1) s0) as [C F]. fold s1 in C, F.
  assert (E : (Qmake (p * 1000000000) 1000 == inject_Z (p * 1000000))%Q) by (unfold Qeq, inject_Z; cbn [Qnum Qden]; lia).
  assert (G : (1 <= inject_Z (p * 1000000))%Q) by (unfold Qle, inject_Z; cbn [Qnum Qden]; lia).
  unfold updateOnFailure at 1. cbv zeta. destruct (Nat.eqb_spec (cnt s1) 0) as [X|_]; [lia|].
  assert (Z : Qltb 0 (Qmake (p * 1000000000) 1000) = true) by (apply Qltb_true; rewrite E; lra). rewrite Z.
  assert (N : Nat.leb 2 (S (fails s1)) = true) by (apply Nat.leb_le; lia). rewrite N. cbn [andb orb ema].
  unfold Qmax'. assert (M : Qltb (Qmake (p * 1000000000) 1000) minSample = false) by (apply Qltb_false; rewrite E; exact G). rewrite M, E. unfold alpha. ring.
Qed.
Lemma cfg_no_penalty g e l u s1 s : made w "load-balance" g = Some e -> s_failurePenalty g = 0%Z ->
  statistics R e l = Some s1 -> 0 < cnt s1 -> (1 <= u)%Z -> statistics R e (l ++ [(false, u)]) = Some s ->
  let x := ((1 # 10) * inject_Z u + (9 # 10) * ema s1)%Q in (ema s1 <= ema s)%Q /\ (x <= ema s)%Q /\ (ema s == ema s1 \/ ema s == x)%Q.
Proof.
  open. intros H P. injection H as <-. rewrite stats_snoc. intros ->. intros C U. cbn [option_map fst snd]. intros H. injection H as <-. rewrite P. cbv zeta.
  assert (G : (1 <= inject_Z u)%Q) by (unfold Qle, inject_Z; cbn [Qnum Qden]; lia).
  unfold updateOnFailure. cbv zeta. destruct (Nat.eqb_spec (cnt s1) 0) as [X|_]; [lia|]. change (Qltb 0 (Qmake (seconds 0) 1000)) with false. cbn [andb orb].
  unfold Qmax'. rewrite (proj2 (Qltb_false (inject_Z u) minSample) G). destruct (Qltb (ema s1) _) eqn:B; cbn [ema].
  - apply Qltb_true in B. unfold alpha in *. repeat split; [lra|lra|right; lra].
  - apply Qltb_false in B. unfold alpha in *. repeat split; [lra|lra|left; lra].
Qed.
End P.
