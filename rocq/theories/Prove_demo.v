(** Concrete proofs of denial that meet the hypotheses, and two that are refused. *)
From Verif Require Import Base Base_proofs Bytes Dns Name_model Name_spec Name_proofs Denial_model Denial_spec Denial_proofs Denial3_proofs Denial_demo Keystore_model Dnssec_model Dnssec_spec Dnssec_demo
  Honest_spec Honest_demo Prove_spec.
Open Scope N_scope.

Lemma names_show n : name_okb n && name_eqb (lname n) n = true -> names (show n) n.
Proof. intros H. apply andb_prop in H. destruct H as [H1 H2]. exists n. split; [apply name_okb_ok, H1|]. split; [reflexivity|apply name_eqb_eq, H2]. Qed.
Definition closestb (z : zone) (q e : name) : bool :=
  existsb (name_eqb e) (nodes z) && suffixb e q && forallb (fun n => negb (suffixb n q) || Nat.leb (length n) (length e)) (nodes z).
Lemma closestb_ok z q e : closestb z q e = true -> closest z q e.
Proof.
  intros H. apply andb_prop in H. destruct H as [H H3]. apply andb_prop in H. destruct H as [H1 H2]. split; [apply nodes_ok, in_existsb, H1|]. split; [apply suffixb_ok, H2|].
  intros e' N S. rewrite forallb_forall in H3. apply nodes_ok in N. specialize (H3 e' N). apply suffixb_ok in S. rewrite S in H3. apply Nat.leb_le, H3.
Qed.
Definition provableb (c : chain3) (q : name) (l : list N) (e : name) : bool :=
  existsb (name_eqb e) (c_names c) && suffixb (l :: e) q && forallb (fun n => negb (suffixb n q) || Nat.leb (length n) (length e)) (c_names c).
Lemma provableb_ok c q l e : provableb c q l e = true -> provable c q l e.
Proof.
  intros H. apply andb_prop in H. destruct H as [H H3]. apply andb_prop in H. destruct H as [H1 H2]. split; [apply in_existsb, H1|]. split; [apply suffixb_ok, H2|].
  intros e' N S. rewrite forallb_forall in H3. specialize (H3 e' N). apply suffixb_ok in S. rewrite S in H3. apply Nat.leb_le, H3.
Qed.
Lemma spans_mk z o nx ts q : name_okb o && name_eqb (lname o) o = true -> name_okb nx && name_eqb (lname nx) nx = true -> ltb o q && (ltb q nx || name_eqb nx (z_apex z)) = true -> spans z (mk_nsec o nx ts) q.
Proof.
  intros A B H. apply andb_prop in H. destruct H as [H1 H2]. exists o, nx. split; [apply names_show, A|]. split; [apply names_show, B|]. split; [apply ltb_ok, H1|].
  apply orb_prop in H2. destruct H2 as [H2|H2]; [left; apply ltb_ok, H2|right; apply name_eqb_eq, H2].
Qed.
Lemma lackingb z n t : hasb z n t || hasb z n 5 = false -> lacking z n t.
Proof. intros H. apply orb_false_iff in H. destruct H as [H1 H2]. split; intros X; apply hasb_ok in X; congruence. Qed.
Lemma owned_mk z c f n nx : name_okb (bytes_of_string (hash toy c n) :: z_apex z) && name_eqb (lname (z_apex z)) (z_apex z) &&
  (if label_dec (map uc (bytes_of_string (hash toy c n))) (bytes_of_string (hash toy c n)) then true else false) = true -> owned3 toy z c (mk_nsec3 z c f n nx) n.
Proof.
  intros H. apply andb_prop in H. destruct H as [H H3]. apply andb_prop in H. destruct H as [H1 H2]. exists (bytes_of_string (hash toy c n)), (z_apex z).
  split; [apply name_okb_ok, H1|]. split; [apply name_eqb_eq, H2|]. split; [reflexivity|]. destruct (label_dec _ _) as [E|]; [exact E|discriminate H3].
Qed.
Lemma betweenb_true a x b : betweenb a x b = true -> between a x b.
Proof.
  unfold betweenb, between. destruct (str_lt a b); [apply andb_prop|]. destruct (String.eqb a b); [|apply orb_prop]. intros H E. subst x. rewrite String.eqb_refl in H. discriminate H.
Qed.

Ltac by_calc := vm_compute; reflexivity.
(** zz.ex, which does not exist: the last record and the one of the apex *)
Definition zz_nsecs : list nsec := pick ex_nsecs [5; 0]%nat.
Lemma zz_proof : nsec_proof ex_zone zz_nsecs (nm "zz.ex.") 1 3.
Proof.
  left. split; [reflexivity|]. exists (nm "ex."). split; [apply closestb_ok; by_calc|]. split.
  - eexists. split; [left; reflexivity|]. apply spans_mk; by_calc.
  - eexists. split; [right; left; reflexivity|]. split; [discriminate|]. intros _. apply spans_mk; by_calc.
Qed.
(** AAAA of a.ex, and A of q.w.ex, for which there is a wildcard *)
Lemma a_proof : nsec_proof ex_zone (pick ex_nsecs [1]%nat) (nm "a.ex.") 28 0.
Proof. right. split; [reflexivity|]. left. eexists. split; [left; reflexivity|]. split; [apply names_show; by_calc|apply lackingb; by_calc]. Qed.
Lemma q_proof : nsec_proof ex_zone (pick ex_nsecs [5]%nat) (nm "q.w.ex.") 1 0.
Proof.
  right. split; [reflexivity|]. right. exists (nm "w.ex."). split; [apply closestb_ok; by_calc|]. split; [discriminate|]. split; [|split; [|apply lackingb; by_calc]].
  - eexists. split; [left; reflexivity|]. apply spans_mk; by_calc.
  - eexists. split; [left; reflexivity|]. apply names_show; by_calc.
Qed.
(** A top level domain that does not exist *)
Definition tld_zone : zone := Zone [] [ ([], [2; 6]); (nm "com.", [2; 43]); (nm "net.", [2]) ]%string.
Definition tld_nsecs : list nsec := [ mk_nsec (nm "com.") (nm "net.") [2; 43]; mk_nsec [] (nm "com.") [2; 6] ]%string.
Lemma tld_zone_ok : zone_ok tld_zone.
Proof. apply zone_okb_ok. by_calc. Qed.
Lemma tld_authentic : Forall (authentic tld_zone) tld_nsecs.
Proof. repeat (apply Forall_cons || apply Forall_nil); apply (nsec_okb_ok tld_zone _ _ _ tld_zone_ok); by_calc. Qed.
Lemma tld_proof : nsec_proof tld_zone tld_nsecs (nm "www.local.") 1 3.
Proof.
  left. split; [reflexivity|]. exists []. split; [apply closestb_ok; by_calc|]. split.
  - eexists. split; [left; reflexivity|]. apply spans_mk; by_calc.
  - eexists. split; [right; left; reflexivity|]. split; [|intros X; elim X; reflexivity]. intros _. apply (names_show []). by_calc.
Qed.
(** The same with NSEC3 *)
Lemma zz_proof3 : nsec3_proof toy ex_zone ex_chain (pick ex_nsec3s [4; 6]%nat) (nm "zz.ex.") 1 3.
Proof.
  left. split; [reflexivity|]. exists [122; 122], (nm "ex."). split; [apply provableb_ok; by_calc|]. split; [eexists; split; [left; reflexivity|apply owned_mk; by_calc]|]. left. split.
  - eexists. split; [right; left; reflexivity|]. exists (nm "w.ex."). split; [apply owned_mk; by_calc|apply betweenb_true; by_calc].
  - eexists. split; [right; left; reflexivity|]. exists (nm "w.ex."). split; [apply owned_mk; by_calc|apply betweenb_true; by_calc].
Qed.
Lemma q_proof3 : nsec3_proof toy ex_zone ex_chain (pick ex_nsec3s [0; 5; 6]%nat) (nm "q.w.ex.") 1 0.
Proof.
  right. split; [reflexivity|]. right. right. exists [113], (nm "w.ex."). split; [apply provableb_ok; by_calc|]. split; [eexists; split; [right; right; left; reflexivity|apply owned_mk; by_calc]|]. split; [|split].
  - eexists. split; [right; left; reflexivity|]. exists (nm "h.b.ex."). split; [apply owned_mk; by_calc|apply betweenb_true; by_calc].
  - eexists. split; [left; reflexivity|]. apply (owned_mk ex_zone ex_chain 0 (nm "*.w.ex.")). by_calc.
  - apply lackingb; by_calc.
Qed.
(** b.ex, which only exists because of h.b.ex, has a record of its own in the chain. *)
Lemma b_proof3 : nsec3_proof toy ex_zone ex_chain (pick ex_nsec3s [2]%nat) (nm "b.ex.") 1 0.
Proof. right. split; [reflexivity|]. left. eexists. split; [left; reflexivity|]. split; [apply owned_mk; by_calc|apply lackingb; by_calc]. Qed.
(** The DS record of an unsigned delegation that the chain leaves out *)
Lemma u_proof3 : nsec3_proof toy oo_zone oo_chain oo_nsec3s (nm "u.ex.") 43 0.
Proof.
  right. split; [reflexivity|]. right. left. split; [reflexivity|]. split; [intros X; apply in_existsb in X; vm_compute in X; discriminate X|]. eexists. split; [right; left; reflexivity|]. split; [reflexivity|].
  exists (nm "ex."). split; [apply owned_mk; by_calc|apply betweenb_true; by_calc].
Qed.

(** ** Refused *)
(** With NSEC, a name that only exists because of a name below it has no record: the record that spans it is the proof (RFC 4035 3.1.3.1), but is not enough. *)
Lemma ent_refused : exists z rs q t, zone_ok z /\ Forall (authentic z) rs /\ suffix (z_apex z) q /\ (forall o ts, In (o, ts) (z_data z) -> exists r, In r rs /\ names (n_owner r) o) /\
  (exists r nx, In r rs /\ spans z r q /\ names (n_next r) nx /\ suffix q nx) /\ ~ answers z q t /\ nsecProvesNODATA rs (show q) t = false.
Proof.
  exists ex_zone, ex_nsecs, (nm "b.ex."), 1. split; [exact ex_zone_ok|]. split; [exact ex_nsecs_authentic|]. split; [apply suffixb_ok; by_calc|]. split; [|split; [|split; [|by_calc]]].
  - intros o ts I. unfold ex_zone in I. cbn [z_data] in I.
    assert (X : existsb (fun r => (n_owner r =? show o)%string) ex_nsecs && (name_okb o && name_eqb (lname o) o) = true)
      by (repeat (destruct I as [I|I]; [injection I as <- <-; by_calc|]); destruct I).
    apply andb_prop in X. destruct X as [X Y]. apply existsb_exists in X. destruct X as (r & J & X). exists r. split; [exact J|]. apply String.eqb_eq in X. rewrite X. apply names_show, Y.
  - exists (mk_nsec (nm "a.ex.") (nm "h.b.ex.") [1; 46]), (nm "h.b.ex."). split; [right; left; reflexivity|]. split; [apply spans_mk; by_calc|]. split; [apply names_show; by_calc|apply suffixb_ok; by_calc].
  - intros (t' & T & [H|(NN & _)]).
    + apply hasb_ok in H. destruct T as [->| ->]; vm_compute in H; discriminate H.
    + apply NN, nodes_ok, in_existsb. by_calc.
Qed.
(** x.y.ex is an unsigned delegation; y.ex exists because of it only, so that the chain leaves both out. The records of ex and the one whose range y.ex is in
    are the proof that x.y.ex has no DS record (RFC 5155 7.2.4). *)
Definition deep_zone : zone := Zone (nm "ex.") [ (nm "ex.", [2; 6; 48]); (nm "m.ex.", [1]); (nm "xa.ex.", [1]); (nm "x.y.ex.", [2]) ]%string.
Definition deep_chain : chain3 := Chain3 1 0 ""%string [ nm "ex."; nm "m.ex."; nm "xa.ex." ]%string.
Definition deep_nsec3s : list nsec3 := pick (chain_recs deep_zone deep_chain 1) [0; 2]%nat.
Lemma deep_zone_ok : zone_ok deep_zone.
Proof. apply zone_okb_ok. by_calc. Qed.
Lemma optout_refused : exists hashName z c rs q l e, zone_ok z /\ chain_ok z c /\ hash_ok hashName c /\ Forall (authentic3 hashName z c) rs /\ suffix (z_apex z) q /\
  has z q 2 /\ ~ has z q 43 /\ provable c q l e /\ (exists r, In r rs /\ owned3 hashName z c r e) /\ (exists r, In r rs /\ N.testbit (h_flags r) 0 = true /\ spans3 hashName z c r (l :: e)) /\
  nsec3ProvesNODATA hashName rs (show q) 43 = false.
Proof.
  exists toy, deep_zone, deep_chain, deep_nsec3s, (nm "x.y.ex."), [121], (nm "ex."). split; [exact deep_zone_ok|]. split; [apply chain_okb_ok; by_calc|]. split; [apply toy_ok|].
  split; [apply pick_forall, chain_recs_ok; [exact deep_zone_ok|by_calc]|]. split; [apply suffixb_ok; by_calc|]. split; [apply hasb_ok; by_calc|]. split; [intros H; apply hasb_ok in H; vm_compute in H; discriminate H|].
  split; [apply provableb_ok; by_calc|]. split; [eexists; split; [left; reflexivity|apply owned_mk; by_calc]|]. split; [|by_calc].
  eexists. split; [right; left; reflexivity|]. split; [reflexivity|]. exists (nm "xa.ex."). split; [apply owned_mk; by_calc|apply betweenb_true; by_calc].
Qed.

(** ** In a message *)
Definition victim_zone : zone := Zone (nm "victim.com.") [ (nm "victim.com.", [2; 6; 48]); (nm "www.victim.com.", [1]) ]%string.
Lemma victim_zone_ok : zone_ok victim_zone.
Proof. apply zone_okb_ok. by_calc. Qed.
Lemma nodata_denial : forall r, the hworld (upstream_query (query "www.victim.com." 28)) r -> exists a z c, r = Ans a /\ denial_of hv ttag thash 1500 2000 htree hsecure a z c.
Proof.
  intros r HW. destruct (nodata_signed r HW) as (a & E & q & n & H & Nn & R & A & S & D & _). exists a, victim_zone, (Chain3 1 0 ""%string []). split; [exact E|]. subst r. injection HW as ->. injection H as <-.
  destruct Nn as (n' & Nok & En & <-). assert (X : n' = nm "www.victim.com.") by (apply show_inj; [exact Nok|apply name_okb_ok; by_calc|rewrite <- En; reflexivity]). subst n'.
  exists (Q "www.victim.com." 28 1), (nm "www.victim.com."). split; [reflexivity|]. split; [apply (names_show (nm "www.victim.com.")); by_calc|]. split; [exact R|]. split; [exact A|]. split; [exact S|]. split; [exact D|].
  split; [exact victim_zone_ok|]. split; [apply suffixb_ok; by_calc|]. left. change (flat_map as_nsec _) with [mk_nsec (nm "www.victim.com.") (nm "victim.com.") [1]]. split.
  - constructor; [|constructor]. apply (nsec_okb_ok victim_zone _ _ _ victim_zone_ok). by_calc.
  - right. split; [reflexivity|]. left. eexists. split; [left; reflexivity|]. split; [apply names_show; by_calc|apply lackingb; by_calc].
Qed.
