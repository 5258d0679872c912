(** Proofs about ModCfg_model.v: fixed responses, DNS64, probing, rate limits, groups of several resolvers, and which groups start *)
From Verif Require Import Base Bytes Dns Cidr_spec Net_spec Redis_model Static_model Static_spec Static_proofs RateLimit_model RateLimit_spec RateLimit_proofs2
  ListCfg_model ListCfg_proofs4 Blocklist_model Groups_model Groups_spec Groups_proofs Groups_proofs2 Groups_proofs3 Groups_proofs4 Groups_proofs5 Groups_proofs6 ModCfg_model ModCfg_spec ModCfg_proofs.
From Verif Require Redis_proofs Router_proofs Dns64_model Dns64_spec Dns64_proofs FastestTcp_model FastestTcp_spec FastestTcp_proofs.
From Coq Require Import QArith.
Local Open Scope N_scope.

Section P.
Context {R : Type}.
Variable w : world R.
Notation lookups := (lookup_all R (w_resolvers w)).
Ltac open := unfold made, make; let gr := fresh "gr" in let L := fresh "L" in destruct (lookups (s_resolvers _)) as [gr|] eqn:L; [|discriminate]; cbn [String.eqb Ascii.eqb Bool.eqb].

(** ** static-responder *)
Lemma ede_set g t : newEDE (w_text w) (s_edeCode g) (s_edeText g) = Some t -> forall q, ede_says w g q (ede_of t q).
Proof.
  unfold newEDE, ede_says. destruct (N.eqb_spec (s_edeCode g) 0) as [C|C]; destruct (String.eqb_spec (s_edeText g) "") as [T|T]; cbn [andb]; intros H q;
    try (injection H as <-; left; repeat split; assumption); right; (split; [tauto|]);
    apply opt_some in H; destruct H as (f & H & ->); exists f; (split; [exact H|]); unfold ede_of; cbn [ede_text ede_code]; destruct (f q None); reflexivity.
Qed.
Lemma cfg_static g e A N E : made w "static-responder" g = Some e ->
  Forall2 (fun t r => w_record w t = Some (Some r)) (s_answer g) A -> Forall2 (fun t r => w_record w t = Some (Some r)) (s_ns g) N ->
  Forall2 (fun t r => w_record w t = Some (Some r)) (s_extra g) E ->
  forall es, exists st, static_run R e es = Some st /\
  forall q, exists a x, static_ask R e st q = Some a /\ ede_says w g q x /\ fixed_reply A N E (s_rcode g) (s_truncate g) x q a.
Proof.
  open. destruct (newEDE (w_text w) (s_edeCode g) (s_edeText g)) as [t|] eqn:T; [|discriminate]. intros M HA HN HE es.
  apply opt_some in M. destruct M as ([h0 s0] & M & ->). cbn [fst snd static_run static_ask].
  destruct (static_fixed (w_record w) [] _ _ _ (s_rcode g) (s_truncate g) t A N E HA HN HE) as (h & s & M' & H). rewrite M in M'. injection M' as <- <-.
  destruct (H es) as (st & Rn & Q). exists st. split; [exact Rn|]. intros q. destruct (Q q) as (h' & l & a & S & F). exists a, (ede_of t q).
  rewrite S. split; [reflexivity|]. split; [exact (ede_set g t T q)|exact F].
Qed.
(** ** static-template *)
Lemma templates_all l : forall fs, templates (w_template w) l = Some fs <-> Forall2 (fun t f => w_template w t = Some f) l fs.
Proof.
  induction l as [|t l IH]; intros fs; cbn [templates]; [split; [intros H; injection H as <-; constructor|intros H; inversion H; reflexivity]|].
  destruct (w_template w t) as [f|] eqn:E.
  - split.
    + intros H. apply opt_some in H. destruct H as (fs' & H & ->). constructor; [exact E|]. apply IH. exact H.
    + intros H. inversion H as [|? f' ? fs' H1 H2]; subst. apply IH in H2. rewrite H2. rewrite E in H1. injection H1 as ->. reflexivity.
  - split; [discriminate|]. intros H. inversion H as [|? f' ? fs' H1 H2]; subst. rewrite E in H1. discriminate H1.
Qed.
Lemma cfg_template g e : made w "static-template" g = Some e ->
  exists fa fn fe, Forall2 (fun t f => w_template w t = Some f) (s_answer g) fa /\ Forall2 (fun t f => w_template w t = Some f) (s_ns g) fn /\
    Forall2 (fun t f => w_template w t = Some f) (s_extra g) fe /\
  forall q, let i := input_of (w_class w) (w_type w) q in
  (forall f text, In f (fa ++ fn ++ fe) -> f i = Some text -> w_record w text <> Some None) ->
  exists m A N E x d, template_ask R (w_record w) (w_class w) (w_type w) e q = Some (m, map Some A, map Some N, map Some (E ++ x)) /\
    rendered (w_record w) i fa A /\ rendered (w_record w) i fn N /\ rendered (w_record w) i fe E /\
    ede_says w g q d /\ fixed_reply [] [] [] (s_rcode g) (s_truncate g) d q (set_extra x m).
Proof.
  open. destruct (newEDE (w_text w) (s_edeCode g) (s_edeText g)) as [t|] eqn:T; [|discriminate].
  destruct (templates (w_template w) (s_answer g)) as [fa|] eqn:HA; [|discriminate]. destruct (templates (w_template w) (s_ns g)) as [fn|] eqn:HN; [|discriminate].
  destruct (templates (w_template w) (s_extra g)) as [fe|] eqn:HE; [|discriminate]. intros M. injection M as <-. exists fa, fn, fe.
  split; [apply templates_all; exact HA|]. split; [apply templates_all; exact HN|]. split; [apply templates_all; exact HE|]. intros q. cbv zeta. intros NB.
  destruct (template_ok (w_record w) (w_class w) (w_type w) fa fn fe (s_rcode g) (s_truncate g) t q NB) as (m & A & N & E & x & H & RA & RN & RE & F).
  exists m, A, N, E, x, (ede_of t q). cbn [template_ask]. rewrite H. split; [reflexivity|]. repeat (split; [assumption|]). split; [exact (ede_set g t T q)|exact F].
Qed.

(** ** dns64 *)
Lemma prefixes_eff g : prefixes g = Dns64_proofs.effective (s_dns64Prefix g).
Proof. unfold prefixes, Dns64_proofs.effective. destruct (s_dns64Prefix g); reflexivity. Qed.
Lemma cfg_dns64 g e : parse_ok (w_addr w) -> made w "dns64" g = Some e ->
  exists up nets, only w g up /\ Forall2 (Dns64_spec.prefix_text (w_addr w)) (prefixes g) nets /\ forall q ci, m_question q <> [] ->
  let ask q := w_answer w up q ci in
  (forall x q' a b, Dns64_spec.wants q x -> Dns64_spec.asks_a q q' -> Dns64_spec.needs ask q q' a b ->
    exists r cnames recs made, does w e q ci = Some ([(up, q); (up, q')], Ans r) /\
      Dns64_spec.picked Dns64_spec.alias (m_answer b) cnames /\ Dns64_spec.picked Dns64_spec.has_v4 (m_answer b) recs /\
      m_answer r = cnames ++ made /\ Forall2 (fun rn y => Dns64_spec.made_from x (fst rn) (snd rn) y) (list_prod recs nets) made /\
      m_id r = m_id q /\ m_rcode r = 0 /\ m_question r = [x]) /\
  ((~ exists x q' a b, Dns64_spec.wants q x /\ Dns64_spec.asks_a q q' /\ Dns64_spec.needs ask q q' a b) ->
    exists qs, does w e q ci = Some (qs, ask q)).
Proof.
  intros PO M. apply made_dns64 in M. destruct M as (up & ps & O & P & ->).
  destruct (Dns64_proofs.prefixes_nets _ _ _ PO P) as (nets & PN & _). rewrite <- prefixes_eff in PN. exists up, nets. split; [exact O|]. split; [exact PN|].
  intros q ci NE ask. split.
  - intros x q' a b W A ND. destruct (Dns64_proofs.synthesizes _ _ _ ask q x q' a b PO P W A ND) as (r & nets' & cn & recs & md & E & PN' & H1 & H2 & H3 & H4 & H5 & H6 & H7 & H8 & _).
    rewrite <- prefixes_eff in PN'. exists r, cn, recs, md.
    assert (nets' = nets) as ->.
    { clear - PN PN' PO. revert nets PN. induction PN' as [|s n l l' T F IH]; intros nets PN; inversion PN as [|? n2 ? l2 T2 F2]; subst; [reflexivity|]. f_equal; [|apply IH; exact F2].
      destruct T as (T & _), T2 as (T2 & _). destruct n as [na nl], n2 as [na2 nl2]. cbn [fst snd] in *. destruct (Router_proofs.net_text_fun _ _ _ _ _ _ T T2) as [-> ->]. reflexivity. }
    unfold does. cbn [ModCfg_model.ask]. change (fun q0 => w_answer w up q0 ci) with ask. rewrite E. cbn [option_map fst snd map]. split; [reflexivity|]. repeat (split; [assumption|]). assumption.
  - intros N. destruct (Dns64_proofs.unchanged _ _ _ ask q PO P NE N) as (qs & E & _). exists (map (pair up) qs). unfold does. cbn [ModCfg_model.ask]. change (fun q0 => w_answer w up q0 ci) with ask. rewrite E. reflexivity.
Qed.

(** ** fastest-tcp *)
Lemma port_ok g : port_says g (port_text (s_port g)).
Proof.
  unfold port_says, port_text. destruct (N.eqb_spec (s_port g) 0) as [->|H]; [left; split; reflexivity|]. right. split; [exact H|].
  destruct (String.eqb_spec (itoa (s_port g)) "0") as [E|]; [|reflexivity]. exfalso. apply H. apply Redis_proofs.itoa_inj. rewrite E. reflexivity.
Qed.
Lemma cfg_fastest_tcp g e : made w "fastest-tcp" g = Some e ->
  exists up p, only w g up /\ port_says g p /\ forall q ci, m_question q <> [] ->
  let r := w_answer w up q ci in let arr := w_probes w p (match r with Ans a => m_answer a | _ => [] end) in
  (forall a T, r = Ans a -> FastestTcp_spec.applies q a T -> let c := FastestTcp_spec.candidates T (m_answer a) in
     FastestTcp_spec.probes (length c) arr -> FastestTcp_spec.usable (s_waitAll g) c arr ->
     exists b new ks, does w e q ci = Some ([(up, q)], Ans b) /\ FastestTcp_spec.same_but_answer a b /\ FastestTcp_spec.replaced T (m_answer a) new (m_answer b) /\
       FastestTcp_spec.in_order (s_successTTLMin g) c ks new /\ (exists x, hd_error arr = Some x /\ hd_error ks = Some (fst x)) /\
       (s_waitAll g = true -> ks = map fst arr)) /\
  (match r with Ans a => forall T, FastestTcp_spec.applies q a T -> let c := FastestTcp_spec.candidates T (m_answer a) in FastestTcp_spec.probes (length c) arr /\ ~ FastestTcp_spec.usable (s_waitAll g) c arr | _ => True end ->
     does w e q ci = Some ([(up, q)], r)).
Proof.
  intros M. apply made_fastest_tcp in M. destruct M as (up & O & ->). exists up, (port_text (s_port g)). split; [exact O|]. split; [apply port_ok|].
  intros q ci NE r arr. split.
  - intros a T Er Ap c Pr Us. destruct (FastestTcp_proofs.reordered_spec (s_waitAll g) (s_successTTLMin g) arr q a T Ap Pr Us) as (b & new & ks & E & H1 & H2 & H3 & _ & H5 & H6).
    exists b, new, ks. split; [|split; [exact H1|split; [exact H2|split; [exact H3|split; [exact H5|]]]]].
    + unfold does. cbn [ask]. unfold answers_of. fold r. fold arr. rewrite Er. rewrite E. reflexivity.
    + intros Wt. rewrite Wt in H6. exact (proj1 H6).
  - intros H. unfold does. cbn [ask]. unfold answers_of. fold r. fold arr. rewrite (FastestTcp_proofs.not_reordered (s_waitAll g) (s_successTTLMin g) arr q r); [reflexivity|].
    destruct r as [a| |]; [|exact I..]. split; [exact NE|exact H].
Qed.

(** ** rate-limiter *)
Lemma cfg_rate ipString g e : made w "rate-limiter" g = Some e -> ip_text ipString -> s_prefix4 g <= 32 -> s_prefix6 g <= 128 ->
  exists up, only w g up /\ forall a t x b n,
  let win := Z.of_N (or_default (s_window g) 60) in let h := a ++ (t, x) :: b in
  ordered win win h -> Forall (fun e => ip_ok (snd e)) h -> N.of_nat (length h) < 2 ^ 64 ->
  count (fun e => same_window win (fst e) t /\ same_subnet (or_default (s_prefix4 g) 24) (or_default (s_prefix6 g) 56) (snd e) x) a n ->
  nth_error (rate R ipString e h) (length a) = Some (Some (if n <? s_requests g then Some up else w_resolvers w (s_limitResolver g))).
Proof.
  intros M T P4 P6. apply made_rate in M. destruct M as (up & O & ->). exists up. split; [exact O|]. intros a t x b n win h Or Ok Ln C.
  set (o := RlOpts (s_requests g) (or_default (s_window g) 60) (or_default (s_prefix4 g) 24) (or_default (s_prefix6 g) 56)).
  assert (V : rl_valid ipString o h).
  { split; [exact T|]. split; [|split; [exact Or|split; [exact Ok|exact Ln]]]. cbn [rl_window rl_prefix4 rl_prefix6 o]. unfold or_default.
    repeat split; match goal with |- context [N.eqb ?a 0] => destruct (N.eqb_spec a 0); lia end. }
  pose proof (exact_outcome ipString o (has (w_resolvers w (s_limitResolver g))) a t x b n V C) as H.
  cbn [rate]. fold o. unfold h. rewrite (map_nth_error _ _ _ H). cbn [rl_requests o].
  destruct (n <? s_requests g); [reflexivity|]. destruct (w_resolvers w (s_limitResolver g)); reflexivity.
Qed.
End P.
