(** C47 in terms of the names that the records belong to, instead of the code's way of finding that out. *)
From Verif Require Import Base Bytes Name_model Name_spec Name_proofs Denial_model Denial_spec Denial3_proofs Prove_spec Prove_proofs Denial_proofs Denial_demo.
Local Open Scope N_scope.

Lemma match_owned hashName z c : zone_ok z -> chain_ok z c -> hash_ok hashName c -> forall r m, authentic3 hashName z c r -> name_ok m -> lname m = m ->
  nsec3_match hashName r (show m) = true -> owned3 hashName z c r m.
Proof.
  intros Z C Hh r m A Mok Ml H. destruct (match_sound hashName z c Z C Hh r m A Mok Ml H) as (S & _).
  destruct A as (n & nx & hl & apex' & I & I' & E1 & E2 & E3 & Ok & La & Eo & Eh & En & T & D & CO).
  exists hl, apex'. split; [exact Ok|]. split; [exact La|]. split; [exact Eo|].
  unfold nsec3_match in H. cbv zeta in H. rewrite Eo in H. rewrite owner_split_show in H by exact Ok. destruct apex' as [|l a] eqn:X; [discriminate H|]. rewrite <- X in *.
  apply andb_prop in H. destruct H as [_ H]. apply String.eqb_eq in H. rewrite Eh in H. destruct Hh as [Inj Plain]. rewrite Plain in H. rewrite E1, E2, E3 in H.
  rewrite Eh. f_equal. exact H.
Qed.
Lemma unowned hashName z c : zone_ok z -> chain_ok z c -> hash_ok hashName c -> forall r m, authentic3 hashName z c r -> name_ok m -> lname m = m ->
  ~ owned3 hashName z c r m -> nsec3_match hashName r (show m) = false.
Proof. intros Z C Hh r m A Mok Ml H. apply Bool.not_true_iff_false. intros M. exact (H (match_owned hashName z c Z C Hh r m A Mok Ml M)). Qed.
Lemma owned_name hashName z c : z_apex z <> [] -> chain_ok z c -> hash_ok hashName c -> zone_ok z -> forall r m, authentic3 hashName z c r -> name_ok m -> lname m = m ->
  owned3 hashName z c r m -> nsec3_match hashName r (show m) = true.
Proof.
  intros Ap C Hh Z r m A Mok Ml O. apply (owned_matches hashName z c Hh Ap r m A Mok Ml); [|exact O].
  destruct A as (n & nx & hl & apex' & I & I' & E1 & E2 & E3 & Ok & La & Eo & Eh & _). destruct O as (hl2 & a2 & Ok2 & _ & Eo2 & Eh2).
  rewrite Eo in Eo2. apply show_inj in Eo2; [|exact Ok|exact Ok2]. injection Eo2 as <- <-. rewrite Eh in Eh2. apply bytes_of_inj in Eh2.
  destruct (chain_name z c Z C n I) as (Nok & Nl & S). destruct Hh as [Inj _]. rewrite <- (Inj n m Nok Mok Nl Ml Eh2). exact S.
Qed.

Lemma nxdomain_owned : forall hashName z c, zone_ok z -> chain_ok z c -> hash_ok hashName c ->
  forall rs q' q, Forall (authentic3 hashName z c) rs -> name_ok q' -> lname q' = q ->
  (forall r, In r rs -> N.testbit (h_flags r) 0 = false) ->
  (forall r, In r rs -> ~ owned3 hashName z c r q) -> (forall r e, In r rs -> name_ok e -> lname e = e -> ~ owned3 hashName z c r (star e)) ->
  nsec3ProvesNXDOMAIN hashName rs (show q') = true -> ~ is_node z q /\ forall e, closest z q e -> ~ is_node z (star e).
Proof.
  intros hashName z c Z C Hh rs q' q F Oq Lq Fl N1 N2 H. pose proof (proj1 (Forall_forall _ _) F) as F'.
  assert (Qok : name_ok q) by (rewrite <- Lq; apply lname_ok, Oq). assert (Ql : lname q = q) by (rewrite <- Lq; apply lname_idem).
  apply (nxdomain3_sound hashName z c Z C Hh rs q' q F Oq Lq Fl); [| |exact H].
  - intros r I. exact (unowned hashName z c Z C Hh r q (F' r I) Qok Ql (N1 r I)).
  - intros r e I E L. exact (unowned hashName z c Z C Hh r (star e) (F' r I) (star_ok e E) (star_lname e L) (N2 r e I E L)).
Qed.
Lemma nxdomain_optout_owned : forall hashName z c, zone_ok z -> chain_ok z c -> hash_ok hashName c ->
  forall rs q' q t, Forall (authentic3 hashName z c) rs -> name_ok q' -> lname q' = q ->
  (forall r, In r rs -> ~ owned3 hashName z c r q) ->
  nsec3ProvesNXDOMAIN hashName rs (show q') = true -> has z q t -> t = 2.
Proof.
  intros hashName z c Z C Hh rs q' q t F Oq Lq N1 H. pose proof (proj1 (Forall_forall _ _) F) as F'.
  assert (Qok : name_ok q) by (rewrite <- Lq; apply lname_ok, Oq). assert (Ql : lname q = q) by (rewrite <- Lq; apply lname_idem).
  apply (nxdomain3_optout hashName z c Z C Hh rs q' q t F Oq Lq); [|exact H].
  intros r I. exact (unowned hashName z c Z C Hh r q (F' r I) Qok Ql (N1 r I)).
Qed.
Lemma denial_owned : forall hashName z c, zone_ok z -> chain_ok z c -> hash_ok hashName c ->
  forall rs q' q t rcode, Forall (authentic3 hashName z c) rs -> name_ok q' -> lname q' = q ->
  (forall r, In r rs -> N.testbit (h_flags r) 0 = false) ->
  (forall r, In r rs -> ~ owned3 hashName z c r q) -> (forall r e, In r rs -> name_ok e -> lname e = e -> ~ owned3 hashName z c r (star e)) ->
  nsec3ProvesDenial hashName rs (show q') t rcode = true ->
  (rcode = 3 /\ ~ is_node z q /\ forall e, closest z q e -> ~ is_node z (star e)) \/ (rcode = 0 /\ ~ answers z q t).
Proof.
  intros hashName z c Z C Hh rs q' q t rcode F Oq Lq Fl N1 N2 H. pose proof (proj1 (Forall_forall _ _) F) as F'.
  assert (Qok : name_ok q) by (rewrite <- Lq; apply lname_ok, Oq). assert (Ql : lname q = q) by (rewrite <- Lq; apply lname_idem).
  apply (denial3_sound hashName z c Z C Hh rs q' q t rcode F Oq Lq Fl); [| |exact H].
  - intros r I. exact (unowned hashName z c Z C Hh r q (F' r I) Qok Ql (N1 r I)).
  - intros r e I E L. exact (unowned hashName z c Z C Hh r (star e) (F' r I) (star_ok e E) (star_lname e L) (N2 r e I E L)).
Qed.
Lemma optout_wildcard_owned : exists hashName z chain rs q e, zone_ok z /\ chain_ok z chain /\ hash_ok hashName chain /\
  Forall (authentic3 hashName z chain) rs /\ (forall r, In r rs -> ~ owned3 hashName z chain r (star e)) /\
  closest z q e /\ has z (star e) 16 /\ nsec3ProvesNXDOMAIN hashName rs (show q) = true.
Proof.
  exists toy, oo_zone, oo_chain, oo_nsec3s, (nm "q.ex."), (nm "ex."). pose proof oo_nsec3s_authentic as F.
  assert (Cl : closest oo_zone (nm "q.ex.") (nm "ex.")).
  { split; [apply nodes_ok, in_existsb; vm_compute; reflexivity|]. split; [apply suffixb_ok; vm_compute; reflexivity|].
    intros e' N S. apply nodes_ok in N. apply suffixb_ok in S. vm_compute in N. repeat (destruct N as [<-|N]; [vm_compute in S; try discriminate S; vm_compute; lia|]). destruct N. }
  split; [exact oo_zone_ok|]. split; [exact oo_chain_ok|]. split; [apply toy_ok|]. split; [exact F|].
  split; [|split; [exact Cl|split; [apply hasb_ok; vm_compute; reflexivity|vm_compute; reflexivity]]].
  intros r I O. rewrite Forall_forall in F. destruct Cl as (Nd & _). destruct (node_ok oo_zone oo_zone_ok (nm "ex.") Nd) as (Eok & El & _).
  pose proof (owned_name toy oo_zone oo_chain ltac:(discriminate) oo_chain_ok (toy_ok oo_chain) oo_zone_ok r _ (F r I) (star_ok _ Eok) (star_lname _ El) O) as M.
  assert (X : forallb (fun r => negb (nsec3_match toy r (show (star (nm "ex."))))) oo_nsec3s = true) by (vm_compute; reflexivity).
  rewrite forallb_forall in X. specialize (X r I). rewrite M in X. discriminate X.
Qed.
Lemma ex_unowned : forall r, In r (pick ex_nsec3s [4; 6]%nat) -> N.testbit (h_flags r) 0 = false /\ ~ owned3 toy ex_zone ex_chain r (nm "zz.ex.") /\
  forall e, name_ok e -> lname e = e -> ~ owned3 toy ex_zone ex_chain r (star e).
Proof.
  intros r I. destruct (ex_hypotheses r I) as (X & Y & W). pose proof (pick_forall _ _ [4; 6]%nat ex_nsec3s_authentic) as F. rewrite Forall_forall in F. split; [exact X|]. split.
  - intros O. assert (Q : name_ok (nm "zz.ex.")) by (repeat (constructor || split); vm_compute; (discriminate || reflexivity || lia)).
    pose proof (owned_name toy ex_zone ex_chain ltac:(discriminate) ex_chain_ok (toy_ok ex_chain) ex_zone_ok r _ (F r I) Q eq_refl O) as M. rewrite Y in M. discriminate M.
  - intros e E L O. pose proof (owned_name toy ex_zone ex_chain ltac:(discriminate) ex_chain_ok (toy_ok ex_chain) ex_zone_ok r _ (F r I) (star_ok e E) (star_lname e L) O) as M. rewrite (W e E L) in M. discriminate M.
Qed.
