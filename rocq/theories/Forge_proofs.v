(** What an attacker without the keys of the zones can and cannot do. *)
From Verif Require Import Base Base_proofs Bytes Dns Name_model Name_spec Name_proofs Denial_model Denial_spec Denial_proofs Denial3_proofs Keystore_model Dnssec_model Dnssec_spec Dnssec_main Prove_proofs Forge_spec.
Open Scope N_scope.

Section FORGE.
Variable verify : rr -> rr -> list rr -> bool.
Variable keyTag : rr -> N.
Variable toDS : rr -> N -> option string.
Variable hashName : string -> N -> N -> string -> string.
Variable anchors : list anchor.
Variable real : name -> rr -> Prop.
Variable made : name -> rr -> list rr -> Prop.
Hypothesis U : unforgeable verify real made.
Hypothesis D : disciplined real made.
Hypothesis A : anchored toDS anchors real.
Notation delegates := (delegates toDS real made).
Notation guarded := (guarded toDS real made).
Notation published := (published made).

Lemma self_real l n k zsk ksk T : name_ok n -> real l k -> self_signed verify keyTag n k zsk ksk T -> key_set zsk ksk -> l = n /\ Forall (real n) (zsk ++ ksk).
Proof.
  intros Nok R (_ & sig & t & alg & lab & ottl & ex & inc & tag & signer & data & _ & G & E & S) [KZ KK].
  destruct G as (c2 & a2 & l2 & o2 & e2 & i2 & t2 & s2 & d2 & k2 & kf & kp & kd & E2 & [<-|[]] & _ & _ & V & _). pose proof (U l k sig _ R V) as M. destruct (D _ _ _ M) as [DS DK].
  specialize (DS _ _ _ _ _ _ _ _ _ E). pose proof (names_canonical _ _ DS) as X. rewrite S in X. assert (EN : n = l) by (apply show_inj; [exact Nok|apply (names_ok _ _ DS)|exact X]). subst l. split; [reflexivity|].
  apply Forall_forall. intros x I. rewrite Forall_forall in KZ, KK. pose proof I as J. apply in_app_or in J. destruct J as [J|J]; [destruct (KZ x J) as (p & a & d & K)|destruct (KK x J) as (p & a & d & K)]; exact (DK x _ _ _ _ I K).
Qed.
Lemma signed_published n keys set T : Forall (real n) keys -> signed verify keyTag keys set T -> published n set T.
Proof.
  intros F (sig & t & L & (cov & alg & lab & ottl & ex & inc & tag & signer & data & k & kf & kp & kd & E & I & _ & _ & V & L1 & L2)). rewrite Forall_forall in F.
  exists sig, t, cov, alg, lab, ottl, ex, inc, tag, signer, data. split; [exact (U n k sig set (F k I) V)|]. auto.
Qed.
Lemma guarded_up l n : guarded (l :: n) -> guarded n /\ delegates n.
Proof. intros G. split; [intros x m S; apply (G x m), (suffix_trans _ n); [exact S|exists [l]; reflexivity]|apply (G l n), suffix_refl]. Qed.
Lemma guarded_suffix z n : suffix z n -> guarded n -> guarded z.
Proof. intros S G l m X. apply (G l m), (suffix_trans _ z); assumption. Qed.
Lemma trusted_real n zsk ksk T : trusted verify keyTag toDS anchors n zsk ksk T -> name_ok n -> guarded n -> Forall (real n) (zsk ++ ksk).
Proof.
  induction 1 as [zsk ksk T k a Ia Ea Dg S K|l n pzsk pksk zsk ksk T k ds d tag alg dt dg TP IH SD FD Id Ed Dg S K]; intros Nok G.
  - apply (self_real [] [] k zsk ksk T); [constructor|exact (A a k Ia Ea Dg)|exact S|exact K].
  - inversion Nok as [|? ? _ Nok']; subst. destruct (guarded_up l n G) as [G' Dl]. specialize (IH Nok' G'). apply Forall_app in IH. destruct IH as [IH _].
    destruct (signed_published n pzsk ds T IH SD) as (sig & t & cov & ? & ? & ? & ? & ? & ? & ? & ? & M & _). destruct (Dl sig ds d tag alg dt dg k M Id Ed Dg) as (l' & R).
    exact (proj2 (self_real (l' :: n) (l :: n) k zsk ksk T Nok R S K)).
Qed.
Lemma authenticated_published n set T : authenticated verify keyTag toDS anchors n set T -> name_ok n -> guarded n -> exists z, suffix z n /\ published z set T.
Proof.
  intros (z & zsk & ksk & S & Tr & Sg) Nok G. exists z. split; [exact S|]. pose proof (trusted_real z zsk ksk T Tr (name_ok_suffix z n S Nok) (guarded_suffix z n S G)) as F. apply Forall_app in F. destruct F as [F _].
  exact (signed_published z zsk set T F Sg).
Qed.
Lemma names_fun s n n' : names s n -> names s n' -> n = n'.
Proof. intros X Y. pose proof (names_canonical _ _ X) as E1. pose proof (names_canonical _ _ Y) as E2. rewrite E1 in E2. apply show_inj; [apply (names_ok _ _ X)|apply (names_ok _ _ Y)|exact E2]. Qed.
Lemma validated_genuine a T : validated verify keyTag toDS hashName anchors a T -> genuine toDS hashName real made a T.
Proof.
  intros [H1 H2]. split; intros E.
  - destruct (H1 E) as (q & n & rs & Hq & Nq & F & P). exists q, n, rs. split; [exact Hq|]. split; [exact Nq|]. split; [|exact P]. intros G r I. destruct (F r I) as (J & set & RS & Au). split; [exact J|].
    destruct (authenticated_published n set T Au (proj1 (names_ok _ _ Nq)) G) as (z & S & Pz). exists z, set. auto.
  - intros r n I NS Nr G. destruct (H2 E r I NS) as (set & n' & Nr' & RS & Au). rewrite (names_fun _ _ _ Nr' Nr) in Au. destruct (authenticated_published n set T Au (proj1 (names_ok _ _ Nr)) G) as (z & S & Pz). exists z, set. auto.
Qed.

Variable content : name -> zone.
Variable chain_of : name -> chain3.
Hypothesis TR : truthful hashName made content chain_of.
Notation unsigned_below := (unsigned_below made content chain_of).
Lemma denies3 z c x q : zone_ok z -> chain_ok z c -> hash_ok hashName c -> authentic3 hashName z c x -> name_ok q -> lname q = q -> nsec3DeniesDS hashName x (show q) = true ->
  ~ has z q 43 /\ (has z q 2 \/ (~ In q (c_names c) /\ N.testbit (h_flags x) 0 = true)).
Proof.
  intros Z C H Ax Qok Ql Dn. split; [exact (ds_denial3_sound hashName z c Z C H x q Ax Qok Ql Dn)|]. unfold nsec3DeniesDS in Dn. destruct (nsec3_match hashName x (show q)) eqn:M.
  - left. destruct (match_sound hashName z c Z C H x q Ax Qok Ql M) as (_ & nx & (_ & _ & _ & Ty & _)). apply Ty. unfold insecureBitmap, contains in Dn. apply andb_prop in Dn. destruct Dn as [Dn _]. apply andb_prop in Dn. destruct Dn as [Dn _].
    apply existsb_exists in Dn. destruct Dn as (y & I & E). apply N.eqb_eq in E. rewrite <- E in I. exact I.
  - right. apply andb_prop in Dn. destruct Dn as [F Cv]. destruct (cover_sound hashName z c H x q Ax Qok Ql M Cv) as (_ & NI & _). auto.
Qed.
Lemma unsigned_really n T : unsigned verify keyTag toDS hashName anchors n T -> name_ok n -> lname n = n -> guarded n -> unsigned_below n.
Proof.
  intros (l & m & zsk & ksk & set & r & S & Tr & Sg & I & Dn) Nok Nl G. assert (Sm : suffix m n) by (apply (suffix_trans _ (l :: m)); [exists [l]; reflexivity|exact S]).
  pose proof (trusted_real m zsk ksk T Tr (name_ok_suffix m n Sm Nok) (guarded_suffix m n Sm G)) as F. apply Forall_app in F. destruct F as [F _].
  destruct (signed_published m zsk set T F Sg) as (sig & t & cov & y1 & y2 & y3 & y4 & y5 & y6 & y7 & y8 & M & _). destruct (TR m sig set r M I) as (Z & T1 & T3).
  pose proof (name_ok_suffix _ n S Nok) as Lok. pose proof (lname_suffix _ n S Nl) as Ll. exists l, m. split; [exact S|]. destruct Dn as [Dn|Dn]; apply existsb_exists in Dn; destruct Dn as (x & Ix & Dn).
  - destruct (ds_denial_sound (content m) Z x (l :: m) (T1 x Ix) Lok Ll Dn) as (H2 & H43 & _). auto.
  - destruct (T3 x Ix) as (C & H & Ax). destruct (denies3 (content m) (chain_of m) x (l :: m) Z C H Ax Lok Ll Dn) as [H43 [H2|[NI Fl]]]; [auto|]. split; [exact H43|]. right. split; [exact NI|]. exists sig, set, r, x. auto.
Qed.
Lemma proven_from a T : proven_unsigned verify keyTag toDS hashName anchors a T -> from_unsigned toDS real made content chain_of a.
Proof.
  intros [H1 H2]. split; intros E.
  - destruct (H1 E) as (q & n & Hq & Nq & Un). exists q, n. split; [exact Hq|]. split; [exact Nq|]. destruct (names_ok _ _ Nq) as [Nok Nl]. apply (unsigned_really n T Un Nok Nl).
  - destruct (H2 E) as (r & n & I & NS & Nr & Un). exists r, n. split; [exact I|]. split; [exact NS|]. split; [exact Nr|]. destruct (names_ok _ _ Nr) as [Nok Nl]. apply (unsigned_really n T Un Nok Nl).
Qed.
End FORGE.

Lemma keys_real verify keyTag toDS hashName anchors real made : unforgeable verify real made -> disciplined real made -> anchored toDS anchors real ->
  forall W t0 zones st i zone n zsk ksk, steps W (start anchors t0 (map (buildChainOfTrust verify keyTag toDS hashName) zones)) st ->
  nth_error zones i = Some zone -> names zone n -> no_dots n -> nth_error (s_threads st) i = Some (Ret (inr (zsk, ksk))) ->
  guarded toDS real made n -> Forall (real n) (zsk ++ ksk).
Proof.
  intros U D A W t0 zones st i zone n zsk ksk St Z Nz ND R G. apply (trusted_real verify keyTag toDS anchors real made U D A n zsk ksk (s_time st)); [|apply (names_ok _ _ Nz)|exact G].
  exact (chain_run verify keyTag toDS hashName anchors W t0 zones st i zone n zsk ksk St Z Nz ND R).
Qed.
Lemma reply_genuine verify keyTag toDS hashName anchors real made content chain_of : unforgeable verify real made -> disciplined real made -> anchored toDS anchors real -> truthful hashName made content chain_of ->
  forall W t0 qs st i q m, steps W (start anchors t0 (map (resolve verify keyTag toDS hashName false) qs)) st ->
  nth_error qs i = Some q -> nth_error (s_threads st) i = Some (Ret (Ans m)) ->
  exists qu a, head (m_question q) = Some qu /\ W (upstream_query q) (Ans a) /\
   (message_ok a ->
     (m_rcode a <> 0 /\ m_rcode a <> 3 /\ m = stripDNSSEC a (set_do q) (had_edns0 q) (q_type qu)) \/ m = servfail q \/
     (genuine toDS hashName real made a (s_time st) /\ m = stripDNSSEC (set_ad true a) (set_do q) (had_edns0 q) (q_type qu)) \/
     (from_unsigned toDS real made content chain_of a /\ m = stripDNSSEC a (set_do q) (had_edns0 q) (q_type qu))).
Proof.
  intros U D A TR W t0 qs st i q m St Q R. destruct (resolve_run verify keyTag toDS hashName anchors W false t0 qs st i q m St Q R) as (qu & a & Hq & Wa & V). exists qu, a. split; [exact Hq|]. split; [exact Wa|].
  intros Ok. destruct (V Ok) as [(R0 & R3 & E)|(_ & [[Va E]|[[Pu E]|[[_ E]|[X _]]]])].
  - left. injection E as ->. auto.
  - right. right. left. injection E as ->. split; [|reflexivity]. exact (validated_genuine verify keyTag toDS hashName anchors real made U D A a _ Va).
  - right. right. right. injection E as ->. split; [|reflexivity]. exact (proven_from verify keyTag toDS hashName anchors real made U D A content chain_of TR a _ Pu).
  - right. left. injection E as ->. reflexivity.
  - discriminate X.
Qed.
Lemma no_downgrade verify keyTag toDS hashName anchors real made content chain_of : unforgeable verify real made -> disciplined real made -> anchored toDS anchors real -> truthful hashName made content chain_of ->
  forall W t0 qs st i q m, steps W (start anchors t0 (map (resolve verify keyTag toDS hashName false) qs)) st ->
  nth_error qs i = Some q -> nth_error (s_threads st) i = Some (Ret (Ans m)) ->
  (forall a, W (upstream_query q) (Ans a) -> message_ok a /\ (m_rcode a = 0 \/ m_rcode a = 3) /\ forall n, about a n -> guarded toDS real made n /\ ~ unsigned_below made content chain_of n) ->
  exists qu a, head (m_question q) = Some qu /\ W (upstream_query q) (Ans a) /\
   (m = servfail q \/ (genuine toDS hashName real made a (s_time st) /\ m = stripDNSSEC (set_ad true a) (set_do q) (had_edns0 q) (q_type qu))).
Proof.
  intros U D A TR W t0 qs st i q m St Q R H. destruct (reply_genuine verify keyTag toDS hashName anchors real made content chain_of U D A TR W t0 qs st i q m St Q R) as (qu & a & Hq & Wa & V). exists qu, a. split; [exact Hq|]. split; [exact Wa|].
  destruct (H a Wa) as (Ok & Rc & Ab). destruct (V Ok) as [(R0 & R3 & _)|[E|[G|[[F1 F2] _]]]]; [destruct Rc; contradiction|left; exact E|right; exact G|]. exfalso. destruct (m_answer a) as [|x l] eqn:E.
  - destruct (F1 eq_refl) as (qx & n & Hx & Nx & X). destruct (Ab n) as [G NU]; [left; split; [exact E|exists qx; auto]|exact (NU (X G))].
  - destruct (F2 ltac:(discriminate)) as (r & n & I & NS & Nx & X). destruct (Ab n) as [G NU]; [right; exists r; rewrite E; auto|exact (NU (X G))].
Qed.
(** The NSEC records in the reply are those of the zone z. *)
Lemma denial_true toDS hashName real made content chain_of a T q n z : truthful hashName made content chain_of -> zone_ok (content z) -> head (m_question a) = Some q -> names (q_name q) n -> guarded toDS real made n ->
  m_answer a = [] -> genuine toDS hashName real made a T -> (forall r, In r (m_ns a) -> as_nsec3 r = []) ->
  (forall m sig set r, In r (m_ns a) -> suffix m n -> made m sig set -> In r set -> as_nsec r <> [] -> m = z) -> suffix (z_apex (content z)) n -> ~ is_owner (content z) [[42]] ->
  (m_rcode a = 3 /\ ~ is_owner (content z) n /\ forall e, closest (content z) n e -> ~ is_owner (content z) (star e)) \/ (m_rcode a = 0 /\ ~ answers (content z) n (q_type q)).
Proof.
  intros TR Zok Hq Nq G E [Gd _] N3 One Sz RW. destruct (Gd E) as (q' & n' & rs & Hq' & Nq' & F & P). rewrite Hq in Hq'. injection Hq' as <-. assert (n' = n) as -> by (apply (names_fun (q_name q)); assumption). specialize (F G).
  assert (Y : flat_map as_nsec3 rs = []).
  { clear P. induction rs as [|r rs IH]; [reflexivity|]. cbn [flat_map]. rewrite (N3 r (proj1 (F r (or_introl eq_refl)))). apply IH. intros x I. apply F. right. exact I. }
  destruct (names_ok _ _ Nq) as [Nok Nl]. rewrite Y in P. destruct P as [P|P].
  - apply (denial_sound (content z) Zok (flat_map as_nsec rs) n n (q_type q) (m_rcode a)); [|exact Nok|exact Nl|exact Sz|exact RW|exact P].
    apply Forall_forall. intros x I. apply in_flat_map in I. destruct I as (r & I & J). destruct (F r I) as (K & m & set & Sm & (nr & Nr & RS) & (sig & t & ? & ? & ? & ? & ? & ? & ? & ? & ? & M & _)).
    assert (Ir : In r set). { apply RS. split; [exact K|]. split; [|auto]. intros Sg. destruct Sg as (? & ? & ? & ? & ? & ? & ? & ? & ? & Sg). unfold as_nsec in J. rewrite Sg in J. exact J. }
    assert (m = z) as -> by (apply (One m sig set r K Sm M Ir); intros X; rewrite X in J; exact J). exact (proj1 (proj2 (TR z sig set r M Ir)) x J).
  - discriminate P.
Qed.
