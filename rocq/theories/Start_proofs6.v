(** The statements of C92 *)
From Verif Require Import Base Bytes Dns Net Cidr_spec Net_spec Router_spec.
From Verif Require ListCfg_model ModCfg_model CacheCfg_model ResCfg_model ResCfg_spec LCfg_model LCfg_spec Router_model.
From Verif Require Import Config_model Start_model Start_spec Start_proofs2 Start_proofs3 Start_proofs4 Start_proofs5.
From Coq Require Import Relations.
Local Open Scope string_scope.

Section S.
Context {CA Cert Key : Type}.
Variable w : world CA Cert Key.
Variable ord : nat -> list string -> list string.
Variable rnd : string -> option bytes.
Variable p : program.
Variable es : list edge.
Hypothesis PO : parse_ok (w_addr w).
Hypothesis HE : ~ In "" (names p).
Hypothesis HO : any_order ord.
Hypothesis HP : edges p es.
Notation run := (begin CA Cert Key w ord rnd p es).
Notation Ok := (Started CA Cert Key).

Lemma runs m ls oc : run = Ok m ls oc -> acceptable w p rnd /\ exists b built, running w p rnd m ls oc b built.
Proof. intros H. pose proof (begin_spec w PO p HE ord es rnd HO HP) as S. rewrite H in S. exact S. Qed.
Lemma starts_iff : (exists m ls oc, run = Ok m ls oc) <-> acceptable w p rnd.
Proof.
  pose proof (begin_spec w PO p HE ord es rnd HO HP) as S. destruct run as [| |m ls oc].
  - split; [intros (m & ls & oc & H); discriminate H|intros A; contradiction].
  - destruct S.
  - split; [intros _; exact (proj1 S)|]. intros _. eauto.
Qed.
Lemma ends : run = Error CA Cert Key \/ exists m ls oc, run = Ok m ls oc.
Proof. pose proof (begin_spec w PO p HE ord es rnd HO HP) as S. destruct run as [| |m ls oc]; [auto|destruct S|right; eauto]. Qed.
Lemma consists m ls oc : run = Ok m ls oc -> exists b, booted w p b /\
  (forall id r, In (id, r) (p_resolvers p) -> made_resolver w (fun n => get n m) b id r) /\ (forall id g, In (id, g) (p_groups p) -> made_group w (fun n => get n m) id g) /\
  (forall id l, In (id, l) (p_routers p) -> made_router w (fun n => get n m) id l) /\ (forall n, get n m <> None <-> In n (served_names p)) /\
  (~ In "bootstrap-resolver" (names p) -> get "bootstrap-resolver" m = option_map (NResolver CA Cert "bootstrap-resolver") b).
Proof.
  intros H. destruct (runs m ls oc H) as (_ & b & built & K). exists b. destruct (elements w p rnd m ls oc b built K) as (A & B & C). split; [exact (k_boot _ _ _ _ _ _ _ _ K)|]. split; [exact A|]. split; [exact B|]. split; [exact C|]. split.
  - eapply (served_get w p); [eassumption|exact (k_boot _ _ _ _ _ _ _ _ K)| |exact (k_rest _ _ _ _ _ _ _ _ K)]. intros a I. destruct (k_made _ _ _ _ _ _ _ _ K a I) as (o & G & _). eauto.
  - intros N. rewrite (k_rest _ _ _ _ _ _ _ _ K _ N). unfold booting. destruct b; reflexivity.
Qed.
Lemma listening m ls oc : run = Ok m ls oc ->
  Forall2 (fun l q => LCfg_spec.started (lworld CA Cert Key w (node CA Cert) (fun n => get n m)) (fst l) (snd l) (rnd (fst l)) q) (p_listeners p) ls.
Proof. intros H. destruct (runs m ls oc H) as (_ & b & built & K). exact (k_listeners _ _ _ _ _ _ _ _ K). Qed.
Lemma routes_run m ls oc id l : run = Ok m ls oc -> In (id, l) (p_routers p) ->
  exists rs to, get id m = Some (NRouter CA Cert id rs to) /\ forall answer now q ci x more,
  m_question q = x :: more -> ci_ip ci = [] \/ ip_ok (ci_ip ci) -> (forall y, subnet_addr q y -> y = [] \/ ip_ok y) -> (forall i, 0 <= Router_model.lt_minute (now i) <= 59)%Z ->
  (exists i t y, nth_error l i = Some t /\ taken w now q ci x i t /\ (forall j t', (j < i)%nat -> nth_error l j = Some t' -> ~ taken w now q ci x j t') /\
     get (t_resolver t) m = Some y /\ nth_error to i = Some y /\
     Router_model.router_resolve (fun i => match nth_error to i with Some y => answer y | None => fun _ _ => Err "" end) now rs q ci = Some ([(i, q)], answer y q ci)) \/
  ((forall j t', nth_error l j = Some t' -> ~ taken w now q ci x j t') /\ exists s,
     Router_model.router_resolve (fun i => match nth_error to i with Some y => answer y | None => fun _ _ => Err "" end) now rs q ci = Some ([], Err s)).
Proof. intros H I. destruct (runs m ls oc H) as (_ & b & built & K). destruct (elements w p rnd m ls oc b built K) as (_ & _ & C). exact (routed w (fun n => get n m) id l PO (C id l I)). Qed.
Lemma confined m ls oc a x y : run = Ok m ls oc -> get a m = Some x -> clos_refl_trans _ (fun u v => exists q ci, asks w (fun n => get n m) q ci u v) x y ->
  exists n, get n m = Some y /\ clos_refl_trans _ (uses p) a n.
Proof.
  intros H G R. destruct (runs m ls oc H) as (_ & b & built & K). apply (reach_uses w p HE rnd m ls oc b built K a x y G).
  unfold reaches. clear - R. induction R as [u v (q & ci & A)|u|u v z R1 I1 R2 I2]; [apply rt_step; exact (asks_held w _ q ci u v A)|apply rt_refl|eapply rt_trans; eassumption].
Qed.
Lemma held m ls oc a x y : run = Ok m ls oc -> get a m = Some x -> In y (holds x) -> exists n, uses p a n /\ get n m = Some y.
Proof. intros H. destruct (runs m ls oc H) as (_ & b & built & K). exact (step_uses w p HE rnd m ls oc b built K a x y). Qed.
Lemma closed m ls oc : run = Ok m ls oc -> NoDup oc /\ forall id, In id oc <-> kept_on_disk p id.
Proof. intros H. destruct (runs m ls oc H) as (_ & b & built & K). exact (closing w p rnd m ls oc b built K). Qed.
End S.
Section T.
Context {CA Cert Key : Type}.
Variable w : world CA Cert Key.
Lemma same_result ord ord' rnd p p' es es' : parse_ok (w_addr w) -> ~ In "" (names p) -> any_order ord -> any_order ord' -> shuffled p p' -> edges p es -> edges p' es' ->
  match begin CA Cert Key w ord rnd p es, begin CA Cert Key w ord' rnd p' es' with
  | Error _ _ _, Error _ _ _ => True
  | Started _ _ _ m ls oc, Started _ _ _ m' ls' oc' => (forall n, get n m = get n m') /\ Permutation ls ls' /\ Permutation oc oc'
  | _, _ => False
  end.
Proof.
  intros PO HE HO HO' S HP HP'.
  assert (HE' : ~ In "" (names p')).
  { pose proof S as (PB & P1 & P2 & P3 & P4). assert (PN : Permutation (names p) (names p')) by (unfold names; repeat apply Permutation_app; apply Permutation_map; assumption). intros I. exact (HE (Permutation_in _ (Permutation_sym PN) I)). }
  pose proof (begin_spec w PO p HE ord es rnd HO HP) as R. pose proof (begin_spec w PO p' HE' ord' es' rnd HO' HP') as R'.
  destruct (begin CA Cert Key w ord rnd p es) as [| |m ls oc]; [|destruct R|]; (destruct (begin CA Cert Key w ord' rnd p' es') as [| |m' ls' oc']; [|destruct R'|]).
  - exact I.
  - apply R. exact (acceptable_shuffled w p' p rnd (shuffled_sym p p' S) (proj1 R')).
  - apply R'. exact (acceptable_shuffled w p p' rnd S (proj1 R)).
  - destruct R as (_ & b & built & K). destruct R' as (_ & b' & built' & K'). exact (same_run w p p' rnd m m' ls ls' oc oc' b b' built built' HE S K K').
Qed.
End T.
Lemma mode_unset : exists mode, octal_text mode 0 /\ forall ll u path, runFDServer ll mode u path = runFDServer ll "" u path.
Proof. exists "000". split; [|reflexivity]. apply (Octal_more "00" 0 0); [reflexivity|]. apply (Octal_more "0" 0 0); [reflexivity|]. apply (Octal_one 0). reflexivity. Qed.
