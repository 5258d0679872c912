(** The zones of the examples, with an attacker who answers for them. *)
From Verif Require Import Base Base_proofs Bytes Dns Name_model Name_spec Name_proofs Denial_model Denial_spec Denial_proofs Denial_demo Keystore_model Dnssec_model Dnssec_spec Dnssec_sys Dnssec_main Dnssec_demo Prove_proofs Prove_demo Forge_spec Forge_proofs.
Open Scope N_scope.
Open Scope list_scope.

(** A name from text, with the root *)
Definition zn (s : string) : name := if String.eqb s "." then [] else nm s.
(** All keys there are, and those that only their zone can sign with: ke is the attacker's. *)
Definition known : list (string * string) := [ ("."%string, "kr"%string); ("."%string, "zr"%string); ("com."%string, "kc"%string); ("com."%string, "zc"%string); ("victim.com."%string, "kv"%string); ("victim.com."%string, "zv"%string); ("victim.com."%string, "ke"%string); ("victim.com."%string, "ze"%string) ].
Definition secret : list (string * string) := firstn 6 known.
Definition key_id (k : rr) : string * string := (rr_name k, key_text k).
Definition pair_eqb (a b : string * string) : bool := String.eqb (fst a) (fst b) && String.eqb (snd a) (snd b).
Definition freal (n : name) (k : rr) : Prop := In (key_id k) secret /\ n = zn (rr_name k).
Definition signer_of (sig : rr) : string := match rr_data sig with DRRSIG _ _ _ _ _ _ _ s _ => s | _ => EmptyString end.
Definition fverify (t : table) (sig k : rr) (set : list rr) : bool := tverify t sig k set && String.eqb (signer_of sig) (rr_name k).
Definition fds (k : rr) (dt : N) : option string := if existsb (pair_eqb (key_id k)) known then tds k dt else None.
Definition fmade (t : table) (n : name) (sig : rr) (set : list rr) : Prop := exists k, freal n k /\ fverify t sig k set = true.
(** The attacker signs an address with their own keys. In stb, com. has signed the DS record that attacker.com. has chosen; in ftb it has not. *)
Definition forged : rr := RR "www.victim.com." 1 1 300 (DA [6; 6; 6; 6]).
Definition stb : table := tb ++ [ ("s0"%string, zsk "victim.com." "ze", [forged]) ].
Definition ftb : table := filter (fun e => negb (String.eqb (fst (fst e)) "s4")) stb.
Definition sworld : world := ("www.victim.com."%string, 1, resp 0 [forged; sg "www.victim.com." 1 "victim.com." "s0"] []) :: evil ++ honest.

Lemma fds_some k dt c : fds k dt = Some c -> In (key_id k) known /\ c = (lower (rr_name k) ++ "/" ++ key_text k)%string.
Proof.
  unfold fds. destruct (existsb _ known) eqn:E; [|discriminate]. unfold tds. intros [= <-]. split; [|reflexivity]. apply existsb_exists in E. destruct E as (x & I & E). unfold pair_eqb in E. apply andb_prop in E. destruct E as [E1 E2].
  apply String.eqb_eq in E1, E2. destruct x as [a b], (key_id k) as [a' b']. cbn in E1, E2. subst. exact I.
Qed.
Lemma f_unforgeable t : unforgeable (fverify t) freal (fmade t).
Proof. intros n k sig set R V. exists k. auto. Qed.
Lemma fmade_in t n sig set : fmade t n sig set -> exists s k, In (s, k, set) t /\ freal n k /\ signer_of sig = rr_name k.
Proof. intros (k & R & V). unfold fverify in V. apply andb_prop in V. destruct V as [V S]. apply String.eqb_eq in S. destruct (tverify_in _ _ _ _ V) as (s & I & _). exists s, k. auto. Qed.
Definition secretb (k : rr) : bool := existsb (pair_eqb (key_id k)) secret.
Lemma secretb_ok k : secretb k = true <-> In (key_id k) secret.
Proof.
  unfold secretb. rewrite existsb_exists. split.
  - intros (x & I & E). unfold pair_eqb in E. apply andb_prop in E. destruct E as [E1 E2]. apply String.eqb_eq in E1, E2. destruct x as [a b], (key_id k) as [a' b']. cbn in E1, E2. subst. exact I.
  - intros I. exists (key_id k). split; [exact I|]. unfold pair_eqb. rewrite !String.eqb_refl. reflexivity.
Qed.
(** The keys in a set signed by a secret key are secret keys of the same zone. *)
Definition disciplinedb (t : table) : bool := forallb (fun e => negb (secretb (snd (fst e))) ||
  (name_okb (zn (rr_name (snd (fst e)))) && name_eqb (lname (zn (rr_name (snd (fst e))))) (zn (rr_name (snd (fst e)))) && String.eqb (show (zn (rr_name (snd (fst e))))) (rr_name (snd (fst e))) &&
   forallb (fun k => match rr_data k with DDNSKEY _ _ _ _ => secretb k && String.eqb (rr_name k) (rr_name (snd (fst e))) | _ => true end) (snd e))) t.
Lemma f_disciplined t : disciplinedb t = true -> disciplined freal (fmade t).
Proof.
  intros H n sig set M. destruct (fmade_in t n sig set M) as (s & k & I & [R ->] & S). unfold disciplinedb in H. rewrite forallb_forall in H. specialize (H _ I). cbn [fst snd] in H. rewrite (proj2 (secretb_ok k) R) in H. cbn [negb orb] in H.
  apply andb_prop in H. destruct H as [H HK]. apply andb_prop in H. destruct H as [H HS]. apply String.eqb_eq in HS. split.
  - intros cov alg lab ottl e i tag signer data E. unfold signer_of in S. rewrite E in S. rewrite S, <- HS. rewrite HS at 2. apply names_show, H.
  - intros k' f p a d Ik E. rewrite forallb_forall in HK. specialize (HK k' Ik). rewrite E in HK. apply andb_prop in HK. destruct HK as [H1 H2]. apply String.eqb_eq in H2. split; [apply secretb_ok, H1|rewrite H2; reflexivity].
Qed.
Lemma f_anchored : anchored fds root_anchor freal.
Proof.
  intros a k [<-|[]] _ (c & E & L). apply fds_some in E. destruct E as [K ->]. cbn [a_digesttype a_digest] in L. unfold freal, key_id in *. remember (rr_name k) as x. remember (key_text k) as y. clear - K L.
  repeat (destruct K as [K|K]; [injection K as <- <-; vm_compute in L; first [discriminate L|split; [vm_compute; auto 10|reflexivity]]|]). destruct K.
Qed.
(** What a DS record in a set signed by a secret key has the digest of *)
Definition delegatesb (t : table) : bool := forallb (fun e => negb (secretb (snd (fst e))) || forallb (fun d => match rr_data d with DDS _ _ _ dg =>
  forallb (fun p => negb (String.eqb (lower (lower (fst p) ++ "/" ++ snd p)) (lower dg)) || (existsb (pair_eqb p) secret && match zn (fst p) with _ :: m => name_eqb m (zn (rr_name (snd (fst e)))) | [] => false end)) known | _ => true end) (snd e)) t.
Lemma f_delegates t : delegatesb t = true -> forall n, delegates fds freal (fmade t) n.
Proof.
  intros H n sig set d tag alg dt dg k M Id Ed (c & E & L). destruct (fmade_in t n sig set M) as (s & sk & I & [R ->] & S). unfold delegatesb in H. rewrite forallb_forall in H. specialize (H _ I). cbn [fst snd] in H. rewrite (proj2 (secretb_ok sk) R) in H. cbn [negb orb] in H.
  rewrite forallb_forall in H. specialize (H d Id). rewrite Ed, forallb_forall in H. apply fds_some in E. destruct E as [K ->]. specialize (H _ K). cbn [key_id fst snd] in H. rewrite L, String.eqb_refl in H. cbn [negb orb] in H. apply andb_prop in H. destruct H as [H1 H2].
  destruct (zn (rr_name k)) as [|l m] eqn:X; [discriminate H2|]. apply name_eqb_eq in H2. exists l. split; [apply secretb_ok, H1|]. rewrite X, H2. reflexivity.
Qed.
Lemma ftb_disciplined : disciplined freal (fmade ftb). Proof. apply f_disciplined. vm_compute. reflexivity. Qed.
Lemma stb_disciplined : disciplined freal (fmade stb). Proof. apply f_disciplined. vm_compute. reflexivity. Qed.
Lemma ftb_guarded n : guarded fds freal (fmade ftb) n.
Proof. intros l m _. apply f_delegates. vm_compute. reflexivity. Qed.

(** What the zones contain; plain.com. is not signed. *)
Definition fzone (d : list (string * list N)) (apex : string) : zone := Zone (zn apex) (map (fun p => (zn (fst p), snd p)) d).
Definition root_content : zone := fzone [ ("."%string, [2; 6]); ("com."%string, [2; 43]) ] ".".
Definition com_content : zone := fzone [ ("com."%string, [2; 6]); ("plain.com."%string, [2]); ("victim.com."%string, [2; 43]) ] "com.".
Definition victim_content : zone := fzone [ ("victim.com."%string, [1; 2; 6]); ("www.victim.com."%string, [1]) ] "victim.com.".
Definition fcontent (n : name) : zone := if name_eqb n (zn "com.") then com_content else if name_eqb n (zn "victim.com.") then victim_content else root_content.
Definition fchain (n : name) : chain3 := Chain3 1 0 ""%string [].
Lemma root_content_ok : zone_ok root_content. Proof. apply zone_okb_ok. vm_compute. reflexivity. Qed.
Lemma com_content_ok : zone_ok com_content. Proof. apply zone_okb_ok. vm_compute. reflexivity. Qed.
Lemma victim_content_ok : zone_ok victim_content. Proof. apply zone_okb_ok. vm_compute. reflexivity. Qed.
Lemma fcontent_ok n : zone_ok (fcontent n).
Proof. unfold fcontent. destruct (name_eqb n _); [exact com_content_ok|]. destruct (name_eqb n _); [exact victim_content_ok|exact root_content_ok]. Qed.
Definition truthfulb (t : table) : bool := forallb (fun e => negb (secretb (snd (fst e))) || forallb (fun r => match rr_data r with DNSEC next ts => String.eqb (show (zn (rr_name r))) (rr_name r) && String.eqb (show (zn next)) next &&
  nsec_okb (fcontent (zn (rr_name (snd (fst e))))) (zn (rr_name r)) (zn next) ts | DNSEC3 _ _ _ _ _ _ => false | _ => true end) (snd e)) t.
Lemma f_truthful t : truthfulb t = true -> truthful thash (fmade t) fcontent fchain.
Proof.
  intros H m sig set r M Ir. split; [apply fcontent_ok|]. destruct (fmade_in t m sig set M) as (s & k & I & [R ->] & S). unfold truthfulb in H. rewrite forallb_forall in H. specialize (H _ I). cbn [fst snd] in H. rewrite (proj2 (secretb_ok k) R) in H. cbn [negb orb] in H.
  rewrite forallb_forall in H. specialize (H r Ir). split; intros x Ix; [unfold as_nsec in Ix|unfold as_nsec3 in Ix]; destruct (rr_data r) eqn:E; try (destruct Ix; fail).
  - destruct Ix as [<-|[]]. apply andb_prop in H. destruct H as [H H3]. apply andb_prop in H. destruct H as [H1 H2]. apply String.eqb_eq in H1, H2.
    pose proof (nsec_okb_ok _ _ _ _ (fcontent_ok (zn (rr_name k))) H3) as X. unfold mk_nsec in X. rewrite H1, H2 in X. exact X.
  - discriminate H.
Qed.
Lemma ftb_truthful : truthful thash (fmade ftb) fcontent fchain. Proof. apply f_truthful. vm_compute. reflexivity. Qed.
Lemma stb_truthful : truthful thash (fmade stb) fcontent fchain. Proof. apply f_truthful. vm_compute. reflexivity. Qed.

(** The attacker's answers are refused if com. signs no DS records that others have chosen, *)
Definition fresolve (t : table) : msg -> prog result := resolve (fverify t) ttag fds thash false.
Definition freply (t : table) (l : world) (q : msg) : option (N * bool * list rr) :=
  match outcome l (fresolve t q) with Ret (Ans m) => Some (m_rcode m, m_ad m, m_answer m) | _ => None end.
Lemma forged_refused : freply ftb sworld (query "www.victim.com." 1) = Some (2, false, []). Proof. vm_compute. reflexivity. Qed.
Lemma stripped_refused : freply ftb (("www.victim.com."%string, 1, resp 0 [forged] []) :: honest) (query "www.victim.com." 1) = Some (2, false, []). Proof. vm_compute. reflexivity. Qed.
Lemma true_accepted : freply ftb honest (query "www.victim.com." 1) = Some (0, true, [arec "www.victim.com."]). Proof. vm_compute. reflexivity. Qed.
(** and accepted if it has. *)
Lemma forged_accepted : freply stb sworld (query "www.victim.com." 1) = Some (0, true, [forged]). Proof. vm_compute. reflexivity. Qed.
(** The record was never signed by a zone, and the DS records that com. has signed for victim.com. are right: the hole is the one for attacker.com. *)
Definition unmadeb (t : table) : bool := forallb (fun e => negb (secretb (snd (fst e))) || negb (existsb (rr_eqb forged) (snd e))) t.
Lemma unmade t : unmadeb t = true -> forall z sig set, fmade t z sig set -> ~ In forged set.
Proof.
  intros H z sig set M I. destruct (fmade_in t z sig set M) as (s & k & J & [R _] & _). unfold unmadeb in H. rewrite forallb_forall in H. specialize (H _ J). cbn [fst snd] in H. rewrite (proj2 (secretb_ok k) R) in H. cbn [negb orb] in H.
  apply negb_true_iff, not_true_iff_false in H. apply H, existsb_exists. exists forged. split; [exact I|]. unfold rr_eqb. destruct (rr_dec forged forged) as [_|N]; [reflexivity|contradiction].
Qed.
Definition ownedb (t : table) : bool := forallb (fun e => negb (secretb (snd (fst e))) || forallb (fun d => match rr_data d with DDS _ _ _ dg => negb (String.eqb (rr_name d) "victim.com.") ||
  forallb (fun p => negb (String.eqb (lower (lower (fst p) ++ "/" ++ snd p)) (lower dg)) || (existsb (pair_eqb p) secret && name_eqb (zn (fst p)) (zn "victim.com."))) known | _ => true end) (snd e)) t.
Lemma owned_ds t : ownedb t = true -> forall z sig set d tag alg dt dg k, fmade t z sig set -> In d set -> rr_name d = "victim.com."%string -> rr_data d = DDS tag alg dt dg -> digest_of fds k dt dg -> freal (zn "victim.com.") k.
Proof.
  intros H n sig set d tag alg dt dg k M Id En Ed (c & E & L). destruct (fmade_in t n sig set M) as (s & sk & I & [R _] & S). unfold ownedb in H. rewrite forallb_forall in H. specialize (H _ I). cbn [fst snd] in H. rewrite (proj2 (secretb_ok sk) R) in H. cbn [negb orb] in H.
  rewrite forallb_forall in H. specialize (H d Id). rewrite Ed, En, String.eqb_refl in H. cbn [negb orb] in H. rewrite forallb_forall in H. apply fds_some in E. destruct E as [K ->]. specialize (H _ K). cbn [key_id fst snd] in H. rewrite L, String.eqb_refl in H. cbn [negb orb] in H. apply andb_prop in H. destruct H as [H1 H2].
  apply name_eqb_eq in H2. split; [apply secretb_ok, H1|symmetry; exact H2].
Qed.
Lemma freply_steps t l q rc ad an : freply t l q = Some (rc, ad, an) -> exists st m, steps (the l) (start root_anchor 1500 (map (fresolve t) [q])) st /\ nth_error (s_threads st) 0 = Some (Ret (Ans m)) /\ m_rcode m = rc /\ m_ad m = ad /\ m_answer m = an.
Proof.
  unfold freply. destruct (outcome l (fresolve t q)) as [[m| |]| | | | | | | |] eqn:E; try discriminate. intros [= <- <- <-]. destruct (outcome_steps l (fresolve t q) _ E) as (st & S & T & _). exists st, m. rewrite T. auto 7.
Qed.
Lemma sibling : exists verify keyTag toDS hashName anchors real made content chain_of W t0 q st m r n,
  unforgeable verify real made /\ disciplined real made /\ anchored toDS anchors real /\ truthful hashName made content chain_of /\
  steps W (start anchors t0 (map (resolve verify keyTag toDS hashName false) [q])) st /\ nth_error (s_threads st) 0 = Some (Ret (Ans m)) /\ m_ad m = true /\ m_answer m = [r] /\
  (forall z sig set, made z sig set -> ~ In r set) /\ names "victim.com." n /\
  (forall z sig set d tag alg dt dg k, made z sig set -> In d set -> rr_name d = "victim.com."%string -> rr_data d = DDS tag alg dt dg -> digest_of toDS k dt dg -> real n k).
Proof.
  destruct (freply_steps stb sworld _ _ _ _ forged_accepted) as (st & m & S & T & _ & Ad & An).
  exists (fverify stb), ttag, fds, thash, root_anchor, freal, (fmade stb), fcontent, fchain, (the sworld), 1500, (query "www.victim.com." 1), st, m, forged, (zn "victim.com.").
  split; [apply f_unforgeable|]. split; [exact stb_disciplined|]. split; [exact f_anchored|]. split; [exact stb_truthful|]. split; [exact S|]. split; [exact T|]. split; [exact Ad|]. split; [exact An|].
  split; [apply unmade; vm_compute; reflexivity|]. split; [apply (names_show (zn "victim.com.")); vm_compute; reflexivity|]. apply owned_ds. vm_compute. reflexivity.
Qed.
(** The names in the attacker's answers are guarded and signed. *)
Lemma www_signed_below : ~ unsigned_below (fmade ftb) fcontent fchain (zn "www.victim.com.").
Proof.
  intros (l & m & [pre E] & N43 & [H|(_ & sig & set & r & x & M & Ir & Ix & _)]).
  - change (zn "www.victim.com.") with [bytes_of_string "www"; bytes_of_string "victim"; bytes_of_string "com"] in E.
    destruct pre as [|a pre]; [injection E as <- <-|destruct pre as [|b pre]; [injection E as _ <- <-|destruct pre as [|c pre]; [injection E as _ _ <- <-|destruct pre; discriminate E]]].
    + destruct H as (ts & I & J). vm_compute in I. destruct I as [I|[I|[]]]; [discriminate I|]. injection I as <-. vm_compute in J. intuition discriminate.
    + apply N43. exists [2; 43]. split; vm_compute; auto.
    + apply N43. exists [2; 43]. split; vm_compute; auto.
  - destruct (ftb_truthful m sig set r M Ir) as (_ & _ & X). destruct (X x Ix) as ((_ & [] & _) & _).
Qed.
Lemma forged_about a : the sworld (upstream_query (query "www.victim.com." 1)) (Ans a) -> message_ok a /\ (m_rcode a = 0 \/ m_rcode a = 3) /\
  forall n, about a n -> guarded fds freal (fmade ftb) n /\ ~ unsigned_below (fmade ftb) fcontent fchain n.
Proof.
  unfold the. intros E. vm_compute in E. injection E as ->. split; [apply message_okb_ok; vm_compute; reflexivity|]. split; [left; reflexivity|]. intros n [[X _]|(r & I & NS & Nr)]; [discriminate X|]. split; [apply ftb_guarded|].
  destruct I as [<-|[<-|[]]]; [|exfalso; apply NS; repeat eexists]. rewrite (names_fun _ n (zn "www.victim.com.") Nr); [exact www_signed_below|]. apply (names_show (zn "www.victim.com.")). vm_compute. reflexivity.
Qed.
(** The denial for www.victim.com. is of victim.com. alone. *)
Lemma nodata_reply97 : freply ftb honest (query "www.victim.com." 28) = Some (0, true, []). Proof. vm_compute. reflexivity. Qed.
Lemma nodata_one a : the honest (upstream_query (query "www.victim.com." 28)) (Ans a) -> message_ok a /\ m_answer a = [] /\ (forall r, In r (m_ns a) -> as_nsec3 r = []) /\
  (forall m sig set r, In r (m_ns a) -> suffix m (zn "www.victim.com.") -> fmade ftb m sig set -> In r set -> as_nsec r <> [] -> m = zn "victim.com.").
Proof.
  unfold the. intros E. vm_compute in E. injection E as ->. split; [apply message_okb_ok; vm_compute; reflexivity|]. split; [reflexivity|]. split.
  - intros r [<-|[<-|[]]]; reflexivity.
  - intros m sig set r Ir _ M Is NE. destruct (fmade_in ftb m sig set M) as (s & k & J & [R ->] & _). destruct Ir as [<-|[<-|[]]]; [|exfalso; apply NE; reflexivity].
    assert (X : forallb (fun e => negb (existsb (rr_eqb (nsecr "www.victim.com." "victim.com." [1])) (snd e)) || name_eqb (zn (rr_name (snd (fst e)))) (zn "victim.com.")) ftb = true) by (vm_compute; reflexivity).
    rewrite forallb_forall in X. specialize (X _ J). cbn [fst snd] in X. apply orb_prop in X. destruct X as [X|X]; [|apply name_eqb_eq, X]. exfalso. apply negb_true_iff, not_true_iff_false in X. apply X, existsb_exists. eexists. split; [exact Is|].
    unfold rr_eqb. match goal with |- (if ?d then _ else _) = true => destruct d as [_|N] end; [reflexivity|exfalso; apply N; reflexivity].
Qed.
