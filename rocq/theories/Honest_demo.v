(** Concrete runs under a faithful resolver, and correctly signed zones that are not accepted. *)
From Verif Require Import Base Bytes Dns Name_model Name_spec Name_proofs Denial_model Denial_spec Denial_demo Keystore_model Dnssec_model Dnssec_spec Dnssec_proofs Dnssec_sys Dnssec_main Dnssec_demo Honest_spec Honest_main.
From Coq Require Import ZArith.
Open Scope N_scope.

(** a.e.com. is a zone below com. with no zone e.com. in between; r.com. has a revoked key. *)
Definition revoked : rr := RR "r.com." 48 1 3600 (DDNSKEY 385 3 8 "ko").
Definition htb : table := tb ++
  [ ("h1", zsk "com." "zc", [ds "a.e.com." "a.e.com./ka"]);
    ("h2", ksk "a.e.com." "ka", [zsk "a.e.com." "za"; ksk "a.e.com." "ka"]);
    ("h3", zsk "a.e.com." "za", [arec "www.a.e.com."]);
    ("h4", zsk "com." "zc", [ds "r.com." "r.com./kx"]);
    ("h5", ksk "r.com." "kx", [zsk "r.com." "zx"; ksk "r.com." "kx"; revoked]);
    ("h6", zsk "r.com." "zx", [arec "www.r.com."]) ]%string.
Definition hworld : world := honest ++
  [ ("gone.plain.com.", 1, resp 3 [] []);
    ("a.e.com.", 43, resp 0 [ds "a.e.com." "a.e.com./ka"; sg "a.e.com." 43 "com." "h1"] []);
    ("a.e.com.", 48, resp 0 [zsk "a.e.com." "za"; ksk "a.e.com." "ka"; sg "a.e.com." 48 "a.e.com." "h2"] []);
    ("www.a.e.com.", 1, resp 0 [arec "www.a.e.com."; sg "www.a.e.com." 1 "a.e.com." "h3"] []);
    ("e.com.", 48, resp 0 [] []); ("e.com.", 43, resp 0 [] []);
    ("r.com.", 43, resp 0 [ds "r.com." "r.com./kx"; sg "r.com." 43 "com." "h4"] []);
    ("r.com.", 48, resp 0 [zsk "r.com." "zx"; ksk "r.com." "kx"; revoked; sg "r.com." 48 "r.com." "h5"] []);
    ("www.r.com.", 1, resp 0 [arec "www.r.com."; sg "www.r.com." 1 "r.com." "h6"] []) ]%string.
Definition zones : list (string * string * string) :=
  [ (".", "zr", "kr"); ("com.", "zc", "kc"); ("victim.com.", "zv", "kv"); ("a.e.com.", "za", "ka"); ("r.com.", "zx", "kx") ]%string.
Definition of_zone (f : string -> string -> string -> rr) (n : name) : list rr :=
  match find (fun e => String.eqb (fst (fst e)) (show n)) zones with Some (z, a, b) => [f z a b] | None => [] end.
Definition htree : tree := Tree (of_zone (fun z a _ => zsk z a)) (of_zone (fun z _ b => ksk z b)) (of_zone (fun z _ b => ds z (z ++ "/" ++ b))).
Definition hsecure (n : name) : Prop := In n [[]; nm "com."; nm "victim.com."].
Notation hv := (tverify htb).

Lemma sg_lasting owner t signer s keys rrset k kf kp kd : In k keys -> rr_data k = DDNSKEY kf kp 8 kd -> hv (sg owner t signer s) k rrset = true -> lasting hv ttag 1500 2000 keys rrset (sg owner t signer s).
Proof. intros I D V u A B. exists t, 8, 0, 3600, 2000, 1000, 7, signer, s, k, kf, kp, kd. split; [reflexivity|]. split; [exact I|]. split; [exact D|]. split; [reflexivity|]. split; [exact V|]. lia. Qed.
Lemma covers_sg owner t signer s : covers (sg owner t signer s) t signer.
Proof. do 7 eexists. reflexivity. Qed.
Ltac lasts := eapply sg_lasting; [left; reflexivity|reflexivity|vm_compute; reflexivity].
Ltac is_name s := exact (proj1 (nameb_ok s ltac:(vm_compute; reflexivity))).
Ltac answers HW A := unfold the, respond in HW; rewrite A in HW; vm_compute in HW; subst.

Lemma root_keys : serves_keys hv ttag tds root_anchor (the hworld) 1500 2000 htree [].
Proof.
  intros u r A HW. unfold asks_for in A. unfold the, respond in HW. rewrite A in HW. exists (set_question [Q "." 48 1] (resp 0 [zsk "." "zr"; ksk "." "kr"; sg "." 48 "." "s1"] [])), (ksk "." "kr"), (sg "." 48 "." "s1"), "."%string.
  split; [exact HW|]. split; [reflexivity|]. split; [reflexivity|]. split; [reflexivity|]. split; [right; right; left; reflexivity|]. split; [apply covers_sg|]. split; [exists []; split; [constructor|split; reflexivity]|]. split; [left; reflexivity|].
  split; [|lasts]. exists (Anchor "." 7 8 2 "./kr"). split; [left; reflexivity|]. split; [exists []; split; [constructor|split; reflexivity]|]. eexists. split; reflexivity.
Qed.
Lemma zone_keys z a b s : forall l n, nm z = l :: n -> z = show (nm z) -> nameb z = true -> lname (nm z) = nm z -> of_zone (fun z a _ => zsk z a) (nm z) = [zsk z a] -> of_zone (fun z _ b => ksk z b) (nm z) = [ksk z b] ->
  of_zone (fun z _ b => ds z (z ++ "/" ++ b)) (nm z) = [ds z (z ++ "/" ++ b)] -> lower z = z ->
  (forall u, m_question u = [Q z 48 1] -> respond hworld u = Ans (set_question (m_question u) (resp 0 [zsk z a; ksk z b; sg z 48 z s] []))) -> hv (sg z 48 z s) (ksk z b) [zsk z a; ksk z b] = true ->
  serves_keys hv ttag tds root_anchor (the hworld) 1500 2000 htree (nm z).
Proof.
  intros l n EN ES NB LN EZ EK ED LZ R V u r A HW. unfold asks_for in A. rewrite <- ES in A. unfold the in HW. rewrite (R u A) in HW. cbn [t_zsk t_ksk t_ds htree]. rewrite EZ, EK.
  exists (set_question (m_question u) (resp 0 [zsk z a; ksk z b; sg z 48 z s] [])), (ksk z b), (sg z 48 z s), z. split; [exact HW|]. split; [reflexivity|]. split; [reflexivity|]. split; [reflexivity|]. split; [right; right; left; reflexivity|]. split; [apply covers_sg|].
  split; [pose proof (nameb_ok z NB) as X; rewrite LN in X; apply X|]. split; [left; reflexivity|]. split.
  - unfold identified. rewrite EN. rewrite <- EN. cbn [t_ds htree]. rewrite ED. exists (ds z (z ++ "/" ++ b)), 7, 8, 2, (z ++ "/" ++ b)%string. split; [left; reflexivity|]. split; [reflexivity|]. eexists. split; [reflexivity|]. cbn. rewrite LZ. reflexivity.
  - apply sg_lasting with (k := ksk z b) (kf := 257) (kp := 3) (kd := b); [left; reflexivity|reflexivity|exact V].
Qed.
Ltac by_world := intros u E; unfold respond; rewrite E; reflexivity.
Ltac keys_of a b s := eapply (zone_keys _ a b s); [vm_compute; reflexivity..|by_world|vm_compute; reflexivity].
Lemma zone_ds z parent d sig : of_zone (fun z _ b => ds z (z ++ "/" ++ b)) (nm z) = [d] -> z = show (nm z) -> (exists o signer s, sig = sg o 43 signer s) -> digest d = true ->
  (forall u, m_question u = [Q z 43 1] -> respond hworld u = Ans (set_question (m_question u) (resp 0 [d; sig] []))) -> lasting hv ttag 1500 2000 (t_zsk htree parent) [d] sig ->
  serves_ds hv ttag (the hworld) 1500 2000 htree (nm z) parent.
Proof.
  intros ED ES (o & signer & s & ->) DD R L u r A HW. unfold asks_for in A. rewrite <- ES in A. unfold the in HW. rewrite (R u A) in HW. cbn [t_ds htree]. rewrite ED. exists (set_question (m_question u) (resp 0 [d; sg o 43 signer s] [])), (sg o 43 signer s), signer.
  split; [exact HW|]. split; [reflexivity|]. split; [cbn; rewrite DD; reflexivity|]. split; [discriminate|]. split; [right; left; reflexivity|]. split; [apply covers_sg|exact L].
Qed.
Ltac ds_of z parent d sig := apply (zone_ds z parent d sig); [vm_compute; reflexivity|vm_compute; reflexivity|do 3 eexists; reflexivity|reflexivity|by_world|lasts].
Lemma com_ds : serves_ds hv ttag (the hworld) 1500 2000 htree (nm "com.") [].
Proof. ds_of "com."%string ([] : name) (ds "com." "com./kc") (sg "com." 43 "." "s2"). Qed.
Lemma victim_ds : serves_ds hv ttag (the hworld) 1500 2000 htree (nm "victim.com.") (nm "com.").
Proof. ds_of "victim.com."%string (nm "com.") (ds "victim.com." "victim.com./kv") (sg "victim.com." 43 "com." "s6"). Qed.
Lemma deep_ds : serves_ds hv ttag (the hworld) 1500 2000 htree (nm "a.e.com.") (nm "com.").
Proof. ds_of "a.e.com."%string (nm "com.") (ds "a.e.com." "a.e.com./ka") (sg "a.e.com." 43 "com." "h1"). Qed.
Lemma r_ds : serves_ds hv ttag (the hworld) 1500 2000 htree (nm "r.com.") (nm "com.").
Proof. ds_of "r.com."%string (nm "com.") (ds "r.com." "r.com./kx") (sg "r.com." 43 "com." "h4"). Qed.
Lemma com_keys : serves_keys hv ttag tds root_anchor (the hworld) 1500 2000 htree (nm "com."). Proof. keys_of "zc"%string "kc"%string "s3"%string. Qed.
Lemma victim_keys : serves_keys hv ttag tds root_anchor (the hworld) 1500 2000 htree (nm "victim.com."). Proof. keys_of "zv"%string "kv"%string "s7"%string. Qed.
Lemma deep_keys : serves_keys hv ttag tds root_anchor (the hworld) 1500 2000 htree (nm "a.e.com."). Proof. keys_of "za"%string "ka"%string "h2"%string. Qed.
Lemma name_facts s : nameb s = true -> lname (nm s) = nm s -> name_ok (nm s) /\ lname (nm s) = nm s /\ no_dots (nm s).
Proof. intros B L. destruct (nameb_ok s B) as [(n' & _) D]. rewrite L in D. split; [|auto]. unfold nameb in B. apply andb_prop in B. destruct B as [B _]. apply andb_prop in B. apply name_okb_ok, B. Qed.
Lemma hfaithful : faithful hv ttag tds root_anchor (the hworld) 1500 2000 htree hsecure.
Proof.
  split; [left; reflexivity|]. split; [|split].
  - intros l n [E|[E|[E|[]]]]; [discriminate E| |].
    + pose proof com_ds as D. rewrite E in D. assert (n = []) by (vm_compute in E; congruence). subst n. split; [left; reflexivity|exact D].
    + pose proof victim_ds as D. rewrite E in D. assert (n = nm "com.") by (vm_compute in E; vm_compute; congruence). subst n. split; [right; left; reflexivity|exact D].
  - intros n [<-|[<-|[<-|[]]]].
    + split; [constructor|]. split; [reflexivity|]. split; [constructor|apply root_keys].
    + destruct (name_facts "com." ltac:(vm_compute; reflexivity) ltac:(vm_compute; reflexivity)) as (A & B & C). auto using com_keys.
    + destruct (name_facts "victim.com." ltac:(vm_compute; reflexivity) ltac:(vm_compute; reflexivity)) as (A & B & C). auto using victim_keys.
  - intros u D. unfold the, respond in D. destruct (m_question u) as [|[qn qt qc] qs]; [discriminate D|]. destruct (find _ _); discriminate D.
Qed.

Definition hresolve : msg -> prog result := resolve hv ttag tds thash false.
Ltac answer_is u HW := unfold the, respond, upstream_query in HW; vm_compute in HW; eexists; split; [exact HW|].
(** An answer that is signed *)
Lemma www_signed : forall r, the hworld (upstream_query (query "www.victim.com." 1)) r -> exists a, r = Ans a /\ signed_answer hv ttag 1500 2000 htree hsecure a.
Proof.
  intros r HW. exists (set_question [Q "www.victim.com." 1 1] (resp 0 [arec "www.victim.com."; sg "www.victim.com." 1 "victim.com." "s8"] [])). split; [exact HW|]. split; [left; reflexivity|]. split; [apply section_okb; vm_compute; reflexivity|]. split; [discriminate|].
  intros x [<-|[<-|[]]] NS; [|elim NS; do 9 eexists; reflexivity]. exists (nm "www.victim.com."), (nm "victim.com."), (sg "www.victim.com." 1 "victim.com." "s8"), "victim.com."%string.
  split; [is_name "www.victim.com."%string|]. split; [right; left; reflexivity|]. split; [is_name "www.victim.com."%string|]. split; [apply covers_sg|]. split; [is_name "victim.com."%string|]. split; [right; right; left; reflexivity|]. split; [exists [[119; 119; 119]]; reflexivity|]. lasts.
Qed.
(** A denial that is signed *)
Lemma nodata_signed : forall r, the hworld (upstream_query (query "www.victim.com." 28)) r -> exists a, r = Ans a /\ signed_denial hv ttag thash 1500 2000 htree hsecure a.
Proof.
  intros r HW. exists (set_question [Q "www.victim.com." 28 1] (resp 0 [] [nsecr "www.victim.com." "victim.com." [1]; sg "www.victim.com." 47 "victim.com." "s15"])). split; [exact HW|].
  exists (Q "www.victim.com." 28 1), (nm "www.victim.com."). split; [reflexivity|]. split; [is_name "www.victim.com."%string|]. split; [left; reflexivity|]. split; [reflexivity|]. split; [apply section_okb; vm_compute; reflexivity|]. split.
  - intros x [<-|[<-|[]]] D; [|discriminate D]. exists (nm "www.victim.com."), (nm "victim.com."), (sg "www.victim.com." 47 "victim.com." "s15"), "victim.com."%string.
    split; [is_name "www.victim.com."%string|]. split; [right; left; reflexivity|]. split; [is_name "www.victim.com."%string|]. split; [apply covers_sg|]. split; [is_name "victim.com."%string|]. split; [right; right; left; reflexivity|]. split; [exists [[119; 119; 119]]; reflexivity|]. lasts.
  - intros rs P. left. assert (E : rs = [nsecr "www.victim.com." "victim.com." [1]]) by (apply Permutation_length_1_inv, Permutation_sym; exact P). rewrite E. vm_compute. reflexivity.
Qed.
(** An unsigned zone *)
Lemma plain_cut : exists l, nm "plain.com." = l :: nm "com." /\ unsigned_cut hv ttag thash (the hworld) 1500 2000 htree hsecure l (nm "com.").
Proof.
  exists [112; 108; 97; 105; 110]. split; [reflexivity|]. destruct (name_facts "plain.com." ltac:(vm_compute; reflexivity) ltac:(vm_compute; reflexivity)) as (A & B & C). split; [right; left; reflexivity|]. split; [exact A|]. split; [exact B|]. split; [exact C|].
  intros u r Q HW. unfold asks_for in Q. unfold the, respond in HW. rewrite Q in HW. exists (set_question [Dns.Q "plain.com." 43 1] (resp 0 [] [nsecr "plain.com." "victim.com." [2]; sg "plain.com." 47 "com." "s9"])), (nsecr "plain.com." "victim.com." [2]), (nm "plain.com."), (sg "plain.com." 47 "com." "s9"), "com."%string.
  split; [exact HW|]. split; [reflexivity|]. split; [apply section_okb; vm_compute; reflexivity|]. split; [left; reflexivity|]. split.
  { left. exists "victim.com."%string, [2]. split; [reflexivity|]. split; [is_name "plain.com."%string|]. split; [reflexivity|]. split; [left; reflexivity|]. split; intros [X|[]]; discriminate X. }
  split; [is_name "plain.com."%string|]. split; [right; left; reflexivity|]. split; [is_name "plain.com."%string|]. split; [apply covers_sg|]. lasts.
Qed.
Lemma www_unsigned : forall r, the hworld (upstream_query (query "www.plain.com." 1)) r -> exists a, r = Ans a /\ unsigned_answer hv ttag thash (the hworld) 1500 2000 htree hsecure a.
Proof.
  intros r HW. exists (set_question [Q "www.plain.com." 1 1] (resp 0 [arec "www.plain.com."] [])). split; [exact HW|]. split; [left; reflexivity|]. split; [apply section_okb; vm_compute; reflexivity|]. destruct plain_cut as (l & E & U).
  assert (P : plain hv ttag thash (the hworld) 1500 2000 htree hsecure [arec "www.plain.com."] (arec "www.plain.com.")).
  { exists (nm "www.plain.com."), l, (nm "com."). split; [is_name "www.plain.com."%string|]. split; [intros sig signer [<-|[]] _ (? & ? & ? & ? & ? & ? & ? & X); discriminate X|]. split; [exact U|]. exists [[119; 119; 119]]. rewrite <- E. reflexivity. }
  assert (NS : ~ is_signature (arec "www.plain.com.")) by (intros (? & ? & ? & ? & ? & ? & ? & ? & ? & X); discriminate X).
  split; [intros x [<-|[]] _; right; exact P|]. exists (arec "www.plain.com."). split; [left; reflexivity|]. auto.
Qed.
Lemma gone_unsigned : forall r, the hworld (upstream_query (query "gone.plain.com." 1)) r -> exists a, r = Ans a /\ unsigned_denial hv ttag thash (the hworld) 1500 2000 htree hsecure a.
Proof.
  intros r HW. exists (set_question [Q "gone.plain.com." 1 1] (resp 3 [] [])). split; [exact HW|]. destruct plain_cut as (l & E & U). exists (Q "gone.plain.com." 1 1), (nm "gone.plain.com."), l, (nm "com.").
  split; [reflexivity|]. split; [is_name "gone.plain.com."%string|]. split; [right; reflexivity|]. split; [reflexivity|]. split; [constructor|]. split; [exact U|]. exists [[103; 111; 110; 101]]. rewrite <- E. reflexivity.
Qed.
(** What the client gets *)
Definition hreply (q : msg) : option (N * bool * list rr * list rr) :=
  match outcome hworld (hresolve q) with Ret (Ans m) => Some (m_rcode m, m_ad m, m_answer m, m_ns m) | _ => None end.
Lemma hreply_steps q rc ad an ns : hreply q = Some (rc, ad, an, ns) -> exists st m, steps (the hworld) (start root_anchor 1500 [hresolve q]) st /\ s_time st = 1500 /\ s_threads st = [Ret (Ans m)] /\
  m_rcode m = rc /\ m_ad m = ad /\ m_answer m = an /\ m_ns m = ns.
Proof.
  unfold hreply. destruct (outcome hworld (hresolve q)) as [[m| |]| | | | | | | |] eqn:E; try discriminate. intros [= <- <- <- <-]. destruct (outcome_steps hworld (hresolve q) _ E) as (st & S & T & X). exists st, m. auto 9.
Qed.

(** ** Correctly signed, not accepted *)
Lemma deep_signed : forall r, the hworld (upstream_query (query "www.a.e.com." 1)) r -> exists a, r = Ans a /\ signed_answer hv ttag 1500 2000 htree (fun n => hsecure n \/ n = nm "a.e.com.") a.
Proof.
  intros r HW. exists (set_question [Q "www.a.e.com." 1 1] (resp 0 [arec "www.a.e.com."; sg "www.a.e.com." 1 "a.e.com." "h3"] [])). split; [exact HW|]. split; [left; reflexivity|]. split; [apply section_okb; vm_compute; reflexivity|]. split; [discriminate|].
  intros x [<-|[<-|[]]] NS; [|elim NS; do 9 eexists; reflexivity]. exists (nm "www.a.e.com."), (nm "a.e.com."), (sg "www.a.e.com." 1 "a.e.com." "h3"), "a.e.com."%string.
  split; [is_name "www.a.e.com."%string|]. split; [right; left; reflexivity|]. split; [is_name "www.a.e.com."%string|]. split; [apply covers_sg|]. split; [is_name "a.e.com."%string|]. split; [right; reflexivity|]. split; [exists [[119; 119; 119]]; reflexivity|]. lasts.
Qed.
Theorem skip_refuted : exists verify keyTag toDS hashName anchors W t0 T tr secure l1 l2 n q st m,
  faithful verify keyTag toDS anchors W t0 T tr secure /\ secure n /\ serves_ds verify keyTag W t0 T tr (l1 :: l2 :: n) n /\ serves_keys verify keyTag toDS anchors W t0 T tr (l1 :: l2 :: n) /\
  (forall r, W (upstream_query q) r -> exists a, r = Ans a /\ signed_answer verify keyTag t0 T tr (fun z => secure z \/ z = l1 :: l2 :: n) a) /\
  steps W (start anchors t0 [resolve verify keyTag toDS hashName false q]) st /\ t0 <= s_time st /\ s_time st <= T /\ s_threads st = [Ret (Ans m)] /\ m_rcode m = 2.
Proof.
  exists hv, ttag, tds, thash, root_anchor, (the hworld), 1500, 2000, htree, hsecure, [97], [101], (nm "com."), (query "www.a.e.com." 1).
  destruct (hreply_steps (query "www.a.e.com." 1) 2 false [] []) as (st & m & S & TM & TH & RC & _); [vm_compute; reflexivity|]. exists st, m.
  split; [apply hfaithful|]. split; [right; left; reflexivity|]. split; [exact deep_ds|]. split; [exact deep_keys|]. split; [exact deep_signed|]. split; [exact S|]. rewrite TM. split; [lia|]. split; [lia|]. auto.
Qed.
(** All keys of the zone are signed by a key with a digest in the signed DS records, and one of the keys is revoked. *)
Theorem revoked_refuted : exists verify keyTag toDS hashName anchors W t0 T tr secure l n q st m,
  faithful verify keyTag toDS anchors W t0 T tr secure /\ secure n /\ serves_ds verify keyTag W t0 T tr (l :: n) n /\
  (forall u r, asks_for (l :: n) 48 u -> W u r -> exists a k sig signer kp ka kd,
    r = Ans a /\ m_rcode a = 0 /\ In sig (m_answer a) /\ covers sig 48 signer /\ names signer (l :: n) /\ In k (m_answer a) /\ rr_data k = DDNSKEY 257 kp ka kd /\ identified toDS anchors tr (l :: n) k /\
    lasting verify keyTag t0 T [k] (filter (fun x => rr_type x =? 48) (m_answer a)) sig /\ filter (flagged 256) (m_answer a) = t_zsk tr (l :: n)) /\
  (forall r, W (upstream_query q) r -> exists a, r = Ans a /\ signed_answer verify keyTag t0 T tr (fun z => secure z \/ z = l :: n) a) /\
  steps W (start anchors t0 [resolve verify keyTag toDS hashName false q]) st /\ t0 <= s_time st /\ s_time st <= T /\ s_threads st = [Ret (Ans m)] /\ m_rcode m = 2.
Proof.
  exists hv, ttag, tds, thash, root_anchor, (the hworld), 1500, 2000, htree, hsecure, [114], (nm "com."), (query "www.r.com." 1).
  destruct (hreply_steps (query "www.r.com." 1) 2 false [] []) as (st & m & S & TM & TH & RC & _); [vm_compute; reflexivity|]. exists st, m.
  split; [apply hfaithful|]. split; [right; left; reflexivity|]. split; [exact r_ds|]. split; [|split].
  - intros u r A HW. unfold asks_for in A. unfold the, respond in HW. rewrite A in HW.
    exists (set_question [Q "r.com." 48 1] (resp 0 [zsk "r.com." "zx"; ksk "r.com." "kx"; revoked; sg "r.com." 48 "r.com." "h5"] [])), (ksk "r.com." "kx"), (sg "r.com." 48 "r.com." "h5"), "r.com."%string, 3, 8, "kx"%string.
    split; [exact HW|]. split; [reflexivity|]. split; [right; right; right; left; reflexivity|]. split; [apply covers_sg|]. split; [is_name "r.com."%string|]. split; [right; left; reflexivity|]. split; [reflexivity|]. split; [|split; [lasts|reflexivity]].
    exists (ds "r.com." "r.com./kx"), 7, 8, 2, "r.com./kx"%string. split; [left; reflexivity|]. split; [reflexivity|]. eexists. split; reflexivity.
  - intros r HW. exists (set_question [Q "www.r.com." 1 1] (resp 0 [arec "www.r.com."; sg "www.r.com." 1 "r.com." "h6"] [])). split; [exact HW|]. split; [left; reflexivity|]. split; [apply section_okb; vm_compute; reflexivity|]. split; [discriminate|].
    intros x [<-|[<-|[]]] NS; [|elim NS; do 9 eexists; reflexivity]. exists (nm "www.r.com."), (nm "r.com."), (sg "www.r.com." 1 "r.com." "h6"), "r.com."%string.
    split; [is_name "www.r.com."%string|]. split; [right; left; reflexivity|]. split; [is_name "www.r.com."%string|]. split; [apply covers_sg|]. split; [is_name "r.com."%string|]. split; [right; reflexivity|]. split; [exists [[119; 119; 119]]; reflexivity|]. lasts.
  - split; [exact S|]. rewrite TM. split; [lia|]. split; [lia|]. auto.
Qed.
