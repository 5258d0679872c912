(** Concrete runs of the validator: examples, and cases in which it accepts too much. *)
From Verif Require Import Base Bytes Dns Name_model Name_spec Name_proofs Denial_model Denial_spec Denial_demo Keystore_model Dnssec_model Dnssec_spec Dnssec_proofs Dnssec_sys Dnssec_main.
From Coq Require Import ZArith.
Open Scope N_scope.

(** A deterministic run: the resolver is a function, maps are iterated in the order given by perm. *)
Section RUN.
Variable answer : msg -> result.
Variable perm : list group -> list group.
Hypothesis perm_ok : forall l, Permutation l (perm l).
Variable W : msg -> result -> Prop.
Hypothesis W_ok : forall q, W q (answer q).
Fixpoint run {R} (t : N) (s : store) (p : prog R) : store * prog R :=
  match p with
  | Ret r => (s, Ret r)
  | Panic => (s, Panic)
  | Fuel => (s, Fuel)
  | Ask q k => run t s (k (answer q))
  | Now k => run t s (k t)
  | GetKeys z k => run t s (k (getDNSKEY s t z))
  | PutKeys z ks t0 k => run t (addDNSKEY s t0 z ks) k
  | GetDS z k => run t s (k (getDS s t z))
  | Shuffle l k => run t s (k (perm l))
  end.
Lemma steps_trans {R} (a b c : sys R) : steps W a b -> steps W b c -> steps W a c.
Proof. intros H1 H2. induction H2 as [s|s s1 s2 _ IH H]; [exact H1|]. eapply steps_step; [apply IH, H1|exact H]. Qed.
Lemma run_steps {R} t (p : prog R) : forall s pre post, steps W (Sys t s (pre ++ p :: post)) (Sys t (fst (run t s p)) (pre ++ snd (run t s p) :: post)).
Proof.
  induction p as [r| | |q k IH|k IH|z k IH|z ks t0 k IH|z k IH|l k IH]; intros s pre post; cbn [run]; try (cbn; apply steps_refl);
    (eapply steps_trans; [eapply steps_step; [apply steps_refl|apply step_prog; constructor; try first [apply perm_ok|apply W_ok]]|apply IH]).
Qed.
End RUN.

(** ** Toy cryptography: a table of the signatures that have been made: the text of the signature, the key, and what was signed. All are
    valid from 1000 to 2000. *)
Definition rdata_dec : forall a b : rdata, {a = b} + {a <> b}.
Proof. repeat decide equality. Defined.
Definition rr_dec : forall a b : rr, {a = b} + {a <> b}.
Proof. decide equality; first [apply rdata_dec|apply N.eq_dec|apply String.string_dec]. Defined.
Definition rr_eqb (a b : rr) : bool := if rr_dec a b then true else false.
Definition rrs_eqb (a b : list rr) : bool := if list_eq_dec rr_dec a b then true else false.
Definition sig_text (sig : rr) (s : string) : bool :=
  match rr_data sig with DRRSIG _ _ _ _ e i _ _ x => N.eqb e 2000 && N.eqb i 1000 && String.eqb x s | _ => false end.
Definition table := list (string * rr * list rr).
Definition tverify (tb : table) (sig k : rr) (rrset : list rr) : bool :=
  existsb (fun e => sig_text sig (fst (fst e)) && rr_eqb (snd (fst e)) k && rrs_eqb (snd e) rrset) tb.
Lemma tverify_in tb sig k rrset : tverify tb sig k rrset = true -> exists s, In (s, k, rrset) tb /\ sig_text sig s = true.
Proof.
  unfold tverify. intros H. apply existsb_exists in H. destruct H as ([[a b] c] & I & E). cbn [fst snd] in E. apply andb_prop in E. destruct E as [E E3].
  apply andb_prop in E. destruct E as [E1 E2]. unfold rr_eqb, rrs_eqb in E2, E3. destruct (rr_dec b k) as [->|]; [|discriminate E2]. destruct (list_eq_dec rr_dec c rrset) as [->|]; [|discriminate E3]. eauto.
Qed.
(** What holds for the whole table holds for all that is signed. *)
Lemma tverify_all tb (f : rr -> list rr -> bool) : forallb (fun e => f (snd (fst e)) (snd e)) tb = true -> forall sig k rrset, tverify tb sig k rrset = true -> f k rrset = true.
Proof. intros H sig k rrset V. apply tverify_in in V. destruct V as (s & I & _). rewrite forallb_forall in H. exact (H _ I). Qed.
Lemma tverify_time tb sig k rrset cov alg lab ottl e i tag signer data : tverify tb sig k rrset = true -> rr_data sig = DRRSIG cov alg lab ottl e i tag signer data -> e = 2000.
Proof. intros V E. apply tverify_in in V. destruct V as (s & _ & X). unfold sig_text in X. rewrite E in X. destruct (N.eqb_spec e 2000); [assumption|discriminate X]. Qed.
Definition key_text (r : rr) : string := match rr_data r with DDNSKEY _ _ _ k => k | _ => EmptyString end.
Definition ttag (k : rr) : N := 7.
Definition tds (k : rr) (dt : N) : option string := Some (lower (rr_name k) ++ "/" ++ key_text k)%string.
Definition thash (s : string) (a i : N) (salt : string) : string := s.

Definition ksk (z k : string) : rr := RR z 48 1 3600 (DDNSKEY 257 3 8 k).
Definition zsk (z k : string) : rr := RR z 48 1 3600 (DDNSKEY 256 3 8 k).
Definition ds (z d : string) : rr := RR z 43 1 3600 (DDS 7 8 2 d).
Definition sg (owner : string) (t : N) (signer s : string) : rr := RR owner 46 1 3600 (DRRSIG t 8 0 3600 2000 1000 7 signer s).
Definition arec (n : string) : rr := RR n 1 1 300 (DA [1; 2; 3; 4]).
Definition nsecr (n next : string) (ts : list N) : rr := RR n 47 1 3600 (DNSEC next ts).
Definition resp (rcode : N) (an ns : list rr) : msg := Msg 0 true 0 false false true true false false rcode [] an ns [].
Definition query (n : string) (t : N) : msg := Msg 5 false 0 false false true false false false 0 [Q n t 1] [] [] [].
Definition root_anchor : list anchor := [Anchor "." 7 8 2 "./kr"].

(** The root, com. and domains below it. attacker.com. has chosen the digest in its DS record; b.com. signs a DS record for the zone that
    is its neighbour a\.b.com., whose first label contains a dot. *)
Definition tb : table :=
  [ ("s1", ksk "." "kr", [zsk "." "zr"; ksk "." "kr"]);
    ("s2", zsk "." "zr", [ds "com." "com./kc"]);
    ("s3", ksk "com." "kc", [zsk "com." "zc"; ksk "com." "kc"]);
    ("s4", zsk "com." "zc", [ds "attacker.com." "victim.com./ke"]);
    ("s5", ksk "victim.com." "ke", [zsk "victim.com." "ze"; ksk "victim.com." "ke"]);
    ("s6", zsk "com." "zc", [ds "victim.com." "victim.com./kv"]);
    ("s7", ksk "victim.com." "kv", [zsk "victim.com." "zv"; ksk "victim.com." "kv"]);
    ("s8", zsk "victim.com." "zv", [arec "www.victim.com."]);
    ("s9", zsk "com." "zc", [nsecr "plain.com." "victim.com." [2]]);
    ("s10", ksk "a\.b.com." "kb", [zsk "a\.b.com." "zb"; ksk "a\.b.com." "kb"]);
    ("s11", zsk "b.com." "zo", [ds "a\.b.com." "a\.b.com./kb"]);
    ("s12", zsk "com." "zc", [ds "b.com." "b.com./ko"]);
    ("s13", ksk "b.com." "ko", [zsk "b.com." "zo"; ksk "b.com." "ko"]);
    ("s14", zsk "victim.com." "zv", [nsecr "victim.com." "www.victim.com." [1; 2; 6]]);
    ("s15", zsk "victim.com." "zv", [nsecr "www.victim.com." "victim.com." [1]]) ]%string.
Definition world := list (string * N * msg).
Definition respond (l : world) (q : msg) : result :=
  match m_question q with
  | Q n t _ :: _ => match find (fun e => String.eqb (fst (fst e)) n && N.eqb (snd (fst e)) t) l with Some e => Ans (set_question (m_question q) (snd e)) | None => Err "no answer" end
  | [] => Err "no question"
  end.
Definition the (l : world) (q : msg) (r : result) : Prop := r = respond l q.
Definition honest : world :=
  [ (".", 48, resp 0 [zsk "." "zr"; ksk "." "kr"; sg "." 48 "." "s1"] []);
    ("com.", 43, resp 0 [ds "com." "com./kc"; sg "com." 43 "." "s2"] []);
    ("com.", 48, resp 0 [zsk "com." "zc"; ksk "com." "kc"; sg "com." 48 "com." "s3"] []);
    ("victim.com.", 43, resp 0 [ds "victim.com." "victim.com./kv"; sg "victim.com." 43 "com." "s6"] []);
    ("victim.com.", 48, resp 0 [zsk "victim.com." "zv"; ksk "victim.com." "kv"; sg "victim.com." 48 "victim.com." "s7"] []);
    ("www.victim.com.", 1, resp 0 [arec "www.victim.com."; sg "www.victim.com." 1 "victim.com." "s8"] []);
    ("www.victim.com.", 28, resp 0 [] [nsecr "www.victim.com." "victim.com." [1]; sg "www.victim.com." 47 "victim.com." "s15"]);
    ("plain.com.", 43, resp 0 [] [nsecr "plain.com." "victim.com." [2]; sg "plain.com." 47 "com." "s9"]);
    ("www.plain.com.", 1, resp 0 [arec "www.plain.com."] []);
    ("b.com.", 43, resp 0 [ds "b.com." "b.com./ko"; sg "b.com." 43 "com." "s12"] []);
    ("b.com.", 48, resp 0 [zsk "b.com." "zo"; ksk "b.com." "ko"; sg "b.com." 48 "b.com." "s13"] []) ]%string.
Definition evil : world :=
  [ ("victim.com.", 43, resp 0 [ds "attacker.com." "victim.com./ke"; sg "attacker.com." 43 "com." "s4"] []);
    ("victim.com.", 48, resp 0 [zsk "victim.com." "ze"; ksk "victim.com." "ke"; sg "victim.com." 48 "victim.com." "s5"] []);
    ("a\.b.com.", 43, resp 0 [ds "a\.b.com." "a\.b.com./kb"; sg "a\.b.com." 43 "b.com." "s11"] []);
    ("a\.b.com.", 48, resp 0 [zsk "a\.b.com." "zb"; ksk "a\.b.com." "kb"; sg "a\.b.com." 48 "a\.b.com." "s10"] []) ]%string.
Definition store0 : store := setAnchors 1500 root_anchor.
Definition tchain := buildChainOfTrust (tverify tb) ttag tds thash.
Definition tresolve := resolve (tverify tb) ttag tds thash false.
Definition idp (l : list group) : list group := l.
Lemma idp_ok l : Permutation l (idp l). Proof. apply Permutation_refl. Qed.
Definition outcome {R} (l : world) (p : prog R) : prog R := snd (run (respond l) idp 1500 store0 p).

(** A run of one program from the start. *)
Lemma outcome_steps {R} l (p : prog R) r : outcome l p = r -> exists st, steps (the l) (start root_anchor 1500 [p]) st /\ s_threads st = [r] /\ s_time st = 1500.
Proof.
  unfold outcome. intros <-. eexists. split; [apply (run_steps (respond l) idp idp_ok (the l) (fun q => eq_refl) 1500 p store0 [] [])|]. split; reflexivity.
Qed.
(** What the client gets; it did not ask for DNSSEC. *)
Definition reply (l : world) (q : msg) : option (N * bool * list rr * list rr) :=
  match outcome l (tresolve q) with Ret (Ans m) => Some (m_rcode m, m_ad m, m_answer m, m_ns m) | _ => None end.
Lemma reply_steps l q rc ad an ns : reply l q = Some (rc, ad, an, ns) -> exists st m, steps (the l) (start root_anchor 1500 [tresolve q]) st /\ s_threads st = [Ret (Ans m)] /\
  m_rcode m = rc /\ m_ad m = ad /\ m_answer m = an /\ m_ns m = ns.
Proof.
  unfold reply. destruct (outcome l (tresolve q)) as [[m| |]| | | | | | | |] eqn:E; try discriminate. intros [= <- <- <- <-]. destruct (outcome_steps l (tresolve q) _ E) as (st & S & T & _). exists st, m. auto 7.
Qed.

Example honest_chain : outcome honest (tchain "Victim.com") = Ret (inr ([zsk "victim.com." "zv"], [ksk "victim.com." "kv"])).
Proof. vm_compute. reflexivity. Qed.
(** An authenticated answer, an authenticated denial, and an answer from an unsigned zone *)
Example honest_reply : reply honest (query "www.victim.com." 1) = Some (0, true, [arec "www.victim.com."], []).
Proof. vm_compute. reflexivity. Qed.
Example nodata_reply : reply honest (query "www.victim.com." 28) = Some (0, true, [], []).
Proof. vm_compute. reflexivity. Qed.
Example plain_reply : reply honest (query "www.plain.com." 1) = Some (0, false, [arec "www.plain.com."], []).
Proof. vm_compute. reflexivity. Qed.
(** Forged data, signatures removed, and a denial of what exists *)
Example forged_reply : reply (("mail.victim.com.", 1, resp 0 [arec "mail.victim.com."; sg "mail.victim.com." 1 "victim.com." "s8"] []) :: honest)%string (query "mail.victim.com." 1) = Some (2, false, [], []).
Proof. vm_compute. reflexivity. Qed.
Example stripped_reply : reply (("www.victim.com.", 1, resp 0 [arec "www.victim.com."] []) :: honest)%string (query "www.victim.com." 1) = Some (2, false, [], []).
Proof. vm_compute. reflexivity. Qed.
Example denied_reply : reply (("www.victim.com.", 1, resp 0 [] [nsecr "www.victim.com." "victim.com." [1]; sg "www.victim.com." 47 "victim.com." "s15"]) :: honest)%string (query "www.victim.com." 1) = Some (2, false, [], []).
Proof. vm_compute. reflexivity. Qed.

(** ** Checking the conditions on messages by computation *)
Definition nameb (s : string) : bool := let n := nm s in name_okb n && String.eqb s (show n) && forallb (fun l => negb (existsb (N.eqb 46) l)) (lname n).
Lemma nameb_ok s : nameb s = true -> names s (lname (nm s)) /\ no_dots (lname (nm s)).
Proof.
  unfold nameb. intros H. apply andb_prop in H. destruct H as [H H3]. apply andb_prop in H. destruct H as [H1 H2]. split; [exists (nm s); split; [apply name_okb_ok, H1|]; split; [apply String.eqb_eq, H2|reflexivity]|].
  apply Forall_forall. intros l I X. rewrite forallb_forall in H3. specialize (H3 l I). apply negb_true_iff in H3. assert (Y : existsb (N.eqb 46) l = true) by (apply existsb_exists; exists 46; auto). congruence.
Qed.
Definition rr_okb (r : rr) : bool := nameb (rr_name r) && match rr_data r with DRRSIG _ _ _ _ _ _ _ s _ => nameb s | _ => true end.
Definition message_okb (a : msg) : bool := forallb rr_okb (m_answer a) && forallb rr_okb (m_ns a) && forallb (fun q => nameb (q_name q)) (m_question a).
Lemma section_okb rs : forallb rr_okb rs = true -> section_ok rs.
Proof.
  intros H r I. rewrite forallb_forall in H. specialize (H r I). unfold rr_okb in H. apply andb_prop in H. destruct H as [H1 H2]. split; [eexists; apply nameb_ok, H1|].
  intros cov alg lab ottl e i tag signer data E. rewrite E in H2. eexists. apply nameb_ok, H2.
Qed.
Lemma message_okb_ok a : message_okb a = true -> message_ok a.
Proof.
  unfold message_okb. intros H. apply andb_prop in H. destruct H as [H H3]. apply andb_prop in H. destruct H as [H1 H2]. split; [apply section_okb, H1|]. split; [apply section_okb, H2|].
  intros q I. rewrite forallb_forall in H3. eexists. apply nameb_ok, (H3 q I).
Qed.

(** ** What the validator accepts beyond that *)
Notation never_signed verify r := (forall sig k rrset, verify sig k rrset = true -> ~ In r rrset).
Lemma unsigned_rec r : forallb (fun e => negb (existsb (rr_eqb r) (snd e))) tb = true -> never_signed (tverify tb) r.
Proof.
  intros H sig k rrset V I. pose proof (tverify_all tb (fun _ rs => negb (existsb (rr_eqb r) rs)) H sig k rrset V) as X. cbv beta in X. apply negb_true_iff in X.
  assert (Y : existsb (rr_eqb r) rrset = true) by (apply existsb_exists; exists r; split; [exact I|]; unfold rr_eqb; destruct (rr_dec r r); congruence). congruence.
Qed.
(** DS records of another domain *)
Lemma ds_owner_refuted : exists verify keyTag toDS hashName W anchors t0 st zsk ksk,
  steps W (start anchors t0 [buildChainOfTrust verify keyTag toDS hashName "victim.com."%string]) st /\ s_threads st = [Ret (inr (zsk, ksk))] /\ zsk <> [] /\
  forall sig k rrset d tag alg dt digest, verify sig k rrset = true -> In d rrset -> rr_name d = "victim.com."%string -> rr_data d = DDS tag alg dt digest ->
  forall key, In key ksk -> toDS key dt <> Some digest.
Proof.
  exists (tverify tb), ttag, tds, thash, (the (evil ++ honest)), root_anchor, 1500.
  destruct (outcome_steps (evil ++ honest) (tchain "victim.com.") (Ret (inr ([zsk "victim.com." "ze"], [ksk "victim.com." "ke"])))) as (st & S & T & _); [vm_compute; reflexivity|].
  exists st, [zsk "victim.com." "ze"], [ksk "victim.com." "ke"]. split; [exact S|]. split; [exact T|]. split; [discriminate|].
  intros sig k rrset d tag alg dt digest V ID ND DD key [<-|[]] TD. injection TD as TD.
  pose proof (tverify_all tb (fun _ rs => forallb (fun d => match rr_data d with DDS _ _ _ dg => negb (String.eqb (rr_name d) "victim.com." && String.eqb dg "victim.com./ke") | _ => true end) rs) ltac:(vm_compute; reflexivity) sig k rrset V) as X.
  cbv beta in X. rewrite forallb_forall in X. specialize (X d ID). rewrite DD, ND, <- TD in X. discriminate X.
Qed.
(** A zone whose first label contains a dot *)
Lemma escaped_refuted : exists verify keyTag toDS hashName W anchors t0 st zone label zsk ksk,
  name_ok [label; [99; 111; 109]] /\ zone = show [label; [99; 111; 109]] /\
  steps W (start anchors t0 [buildChainOfTrust verify keyTag toDS hashName zone]) st /\ s_threads st = [Ret (inr (zsk, ksk))] /\ zsk <> [] /\
  forall sig k rrset d, verify sig k rrset = true -> In d rrset -> rr_name d = zone -> rr_type d = 43 -> rr_name k <> "com."%string.
Proof.
  exists (tverify tb), ttag, tds, thash, (the (evil ++ honest)), root_anchor, 1500.
  destruct (outcome_steps (evil ++ honest) (tchain "a\.b.com.") (Ret (inr ([zsk "a\.b.com." "zb"], [ksk "a\.b.com." "kb"])))) as (st & S & T & _); [vm_compute; reflexivity|].
  exists st, "a\.b.com."%string, [97; 46; 98], [zsk "a\.b.com." "zb"], [ksk "a\.b.com." "kb"].
  split; [apply name_okb_ok; reflexivity|]. split; [reflexivity|]. split; [exact S|]. split; [exact T|]. split; [discriminate|].
  intros sig k rrset d V ID ND TD NK.
  pose proof (tverify_all tb (fun k rs => forallb (fun d => negb (String.eqb (rr_name d) "a\.b.com." && N.eqb (rr_type d) 43 && String.eqb (rr_name k) "com.")) rs) ltac:(vm_compute; reflexivity) sig k rrset V) as X.
  cbv beta in X. rewrite forallb_forall in X. specialize (X d ID). rewrite ND, TD, NK in X. discriminate X.
Qed.
(** Cached keys, when no signature is valid any more *)
Lemma expired_refuted : exists verify keyTag toDS hashName W anchors t0 st zone zsk ksk,
  steps W (start anchors t0 [buildChainOfTrust verify keyTag toDS hashName zone; buildChainOfTrust verify keyTag toDS hashName zone]) st /\
  nth_error (s_threads st) 1 = Some (buildChainOfTrust verify keyTag toDS hashName zone) /\
  (exists st', steps W st st' /\ nth_error (s_threads st') 1 = Some (Ret (inr (zsk, ksk)))) /\ zsk <> [] /\
  forall sig k rrset cov alg lab ottl expiration inception tag signer data, verify sig k rrset = true -> rr_data sig = DRRSIG cov alg lab ottl expiration inception tag signer data ->
  expiration < s_time st.
Proof.
  exists (tverify tb), ttag, tds, thash, (the honest), root_anchor, 1500.
  set (p := tchain "com."). set (s1 := fst (run (respond honest) idp 1500 store0 p)). set (r := snd (run (respond honest) idp 1500 store0 p)).
  exists (Sys 2500 s1 [r; p]), "com."%string, [zsk "com." "zc"], [ksk "com." "kc"].
  assert (S1 : steps (the honest) (Sys 1500 store0 [p; p]) (Sys 1500 s1 [r; p])) by apply (run_steps (respond honest) idp idp_ok (the honest) (fun q => eq_refl) 1500 p store0 [] [p]).
  split; [eapply steps_step; [exact S1|apply step_time; lia]|]. split; [reflexivity|]. split; [|split; [discriminate|]].
  - eexists. split; [apply (run_steps (respond honest) idp idp_ok (the honest) (fun q => eq_refl) 2500 p s1 [r] [])|]. vm_compute. reflexivity.
  - intros sig k rrset cov alg lab ottl e i tag signer data V E. rewrite (tverify_time _ _ _ _ _ _ _ _ _ _ _ _ _ V E). cbn. lia.
Qed.
(** The resolver's own AD flag *)
Definition with_ad : world := [("www.plain.com."%string, 1, set_ad true (resp 0 [arec "www.plain.com."] []))].
Lemma ad_refuted : exists verify keyTag toDS hashName W anchors t0 st q m r,
  steps W (start anchors t0 [resolve verify keyTag toDS hashName false q]) st /\ s_threads st = [Ret (Ans m)] /\ m_rcode m = 0 /\ m_ad m = true /\ In r (m_answer m) /\ never_signed verify r.
Proof.
  exists (tverify tb), ttag, tds, thash, (the (with_ad ++ honest)), root_anchor, 1500.
  destruct (reply_steps (with_ad ++ honest) (query "www.plain.com." 1) 0 true [arec "www.plain.com."] []) as (st & m & S & T & RC & AD & AN & _); [vm_compute; reflexivity|].
  exists st, (query "www.plain.com." 1), m, (arec "www.plain.com."). rewrite AN. split; [exact S|]. split; [exact T|]. split; [exact RC|]. split; [exact AD|]. split; [left; reflexivity|]. apply unsigned_rec. vm_compute. reflexivity.
Qed.
(** Only signatures, none of them valid *)
Lemma sigonly_refuted : exists W anchors t0 st q m,
  steps W (start anchors t0 [resolve (fun _ _ _ => false) ttag tds thash false q]) st /\ s_threads st = [Ret (Ans m)] /\
  (forall a, W (upstream_query q) (Ans a) -> m_ad a = false) /\ m_rcode m = 0 /\ m_ad m = true /\ m_answer m = [] /\ m_ns m = [].
Proof.
  set (l := [("www.victim.com."%string, 1, resp 0 [sg "www.victim.com." 1 "victim.com." "x"] [])]).
  exists (the l), root_anchor, 1500. set (q := query "www.victim.com." 1).
  eexists _, q, _. split; [apply (run_steps (respond l) idp idp_ok (the l) (fun q => eq_refl) 1500 (resolve (fun _ _ _ => false) ttag tds thash false q) store0 [] [])|].
  split; [cbn [s_threads app]; f_equal; vm_compute; reflexivity|]. split; [intros a [= ->]; reflexivity|]. auto.
Qed.
(** Records that were not asked for *)
Definition other : world := [("mail.victim.com."%string, 1, resp 0 [arec "www.victim.com."; sg "www.victim.com." 1 "victim.com." "s8"] [])].
Lemma question_refuted : exists verify keyTag toDS hashName W anchors t0 st q m,
  steps W (start anchors t0 [resolve verify keyTag toDS hashName false q]) st /\ s_threads st = [Ret (Ans m)] /\
  (forall a, W (upstream_query q) (Ans a) -> m_ad a = false) /\ m_rcode m = 0 /\ m_ad m = true /\
  (forall r qu, In r (m_answer m) -> In qu (m_question q) -> rr_name r <> q_name qu) /\ m_ns m = [].
Proof.
  exists (tverify tb), ttag, tds, thash, (the (other ++ honest)), root_anchor, 1500.
  destruct (reply_steps (other ++ honest) (query "mail.victim.com." 1) 0 true [arec "www.victim.com."] []) as (st & m & S & T & RC & AD & AN & NS); [vm_compute; reflexivity|].
  exists st, (query "mail.victim.com." 1), m. split; [exact S|]. split; [exact T|]. split; [intros a H; cbv in H; injection H as ->; reflexivity|]. split; [exact RC|]. split; [exact AD|]. split; [|exact NS].
  rewrite AN. intros r qu [<-|[]] [<-|[]]. discriminate.
Qed.
(** NXDOMAIN without denial of existence *)
Definition nx : world := [("www.victim.com."%string, 1, resp 3 [arec "www.victim.com."; sg "www.victim.com." 1 "victim.com." "s8"] [])].
Lemma nxdomain_refuted : exists verify keyTag toDS hashName W anchors t0 st q m,
  steps W (start anchors t0 [resolve verify keyTag toDS hashName false q]) st /\ s_threads st = [Ret (Ans m)] /\
  (forall a, W (upstream_query q) (Ans a) -> m_ad a = false /\ m_ns a = []) /\ m_rcode m = 3 /\ m_ad m = true /\ m_ns m = [].
Proof.
  exists (tverify tb), ttag, tds, thash, (the (nx ++ honest)), root_anchor, 1500.
  destruct (reply_steps (nx ++ honest) (query "www.victim.com." 1) 3 true [arec "www.victim.com."] []) as (st & m & S & T & RC & AD & AN & NS); [vm_compute; reflexivity|].
  exists st, (query "www.victim.com." 1), m. split; [exact S|]. split; [exact T|]. split; [intros a H; cbv in H; injection H as ->; auto|]. auto.
Qed.
(** Forged records of a signed zone, beside a record of an unsigned one *)
Definition mixed : world := [("mail.victim.com."%string, 1, resp 0 [arec "www.plain.com."; arec "mail.victim.com."] [])].
Lemma mixed_refuted : exists verify keyTag toDS hashName W anchors t0 st q m r n,
  steps W (start anchors t0 [resolve verify keyTag toDS hashName false q]) st /\ s_threads st = [Ret (Ans m)] /\
  m_rcode m = 0 /\ In r (m_answer m) /\ names (rr_name r) n /\ never_signed verify r /\ forall T, ~ unsigned verify keyTag toDS hashName anchors n T.
Proof.
  exists (tverify tb), ttag, tds, thash, (the (mixed ++ honest)), root_anchor, 1500.
  destruct (reply_steps (mixed ++ honest) (query "mail.victim.com." 1) 0 false [arec "www.plain.com."; arec "mail.victim.com."] []) as (st & m & S & T & RC & AD & AN & NS); [vm_compute; reflexivity|].
  exists st, (query "mail.victim.com." 1), m, (arec "mail.victim.com."), (nm "mail.victim.com."). split; [exact S|]. split; [exact T|]. split; [exact RC|]. rewrite AN. split; [right; left; reflexivity|].
  split; [apply (nameb_ok "mail.victim.com."); vm_compute; reflexivity|]. split; [apply unsigned_rec; vm_compute; reflexivity|].
  intros t (l & n & zs & ks & rrset & r & SU & _ & (sig & u & _ & G) & IR & D). destruct G as (cov & alg & lab & ottl & e & i & tag & signer & data & k & kf & kp & kd & _ & _ & _ & _ & V & _).
  pose proof (tverify_all tb (fun _ rs => forallb (fun r => forallb (fun z => match z with [] => true | _ => negb (existsb (fun x => nsecDeniesDS x (show z)) (as_nsec r)) && negb (existsb (fun x => nsec3DeniesDS thash x (show z)) (as_nsec3 r)) end) (tails (nm "mail.victim.com."))) rs)
    ltac:(vm_compute; reflexivity) sig k rrset V) as X.
  cbv beta in X. rewrite forallb_forall in X. specialize (X r IR). rewrite forallb_forall in X. specialize (X _ (tails_suffix _ _ SU)). cbv beta iota in X. apply andb_prop in X. destruct X as [X1 X2]. apply negb_true_iff in X1, X2. destruct D; congruence.
Qed.
(** A dropped query for keys *)
Lemma drop_refuted : exists W anchors t0 st q, m_question q <> [] /\ steps W (start anchors t0 [tresolve q]) st /\ s_threads st = [Panic].
Proof.
  set (ans := fun q : msg => match m_question q with Q _ 48 _ :: _ => Drop | _ => respond honest q end). set (q := query "www.victim.com." 1).
  exists (fun q r => r = ans q), root_anchor, 1500. eexists _, q. split; [discriminate|]. split; [apply (run_steps ans idp idp_ok (fun q r => r = ans q) (fun q => eq_refl) 1500 (tresolve q) store0 [] [])|]. vm_compute. reflexivity.
Qed.
