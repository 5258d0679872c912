(** Which rule of a regular expression list is reported *)
From Verif Require Import Base Bytes Dns Cidr_spec Lists_proofs Lists_model Lists_proofs2.

Lemma first_found compile n pre : forall rule post l f, newRegexpDB compile (pre ++ rule :: post) = Some l -> ~ blank rule -> compile (trim_space rule) = Some f -> f n = true ->
  (forall r g, In r pre -> ~ blank r -> compile (trim_space r) = Some g -> g n = false) -> find (fun r => snd r n) l = Some (trim_space rule, f).
Proof.
  induction pre as [|p pre IH]; intros rule post l f H N C F A; cbn [app newRegexpDB] in H.
  - destruct (String.eqb (trim_space rule) "" || has_prefix "#" (trim_space rule)) eqn:B; [rewrite orb_comm in B; apply blank_bool in B; contradiction|].
    rewrite C in H. destruct (newRegexpDB compile post) as [l'|]; [|discriminate H]. injection H as <-. cbn [find snd]. rewrite F. reflexivity.
  - assert (A' : forall r g, In r pre -> ~ blank r -> compile (trim_space r) = Some g -> g n = false) by (intros r g I; exact (A r g (or_intror I))).
    destruct (String.eqb (trim_space p) "" || has_prefix "#" (trim_space p)) eqn:B; [exact (IH rule post l f H N C F A')|].
    assert (NB : ~ blank p) by (intros K; apply blank_bool in K; rewrite orb_comm, K in B; discriminate B).
    destruct (compile (trim_space p)) as [g|] eqn:P; [|discriminate H]. destruct (newRegexpDB compile (pre ++ rule :: post)) as [l'|] eqn:L; [|discriminate H]. injection H as <-.
    cbn [find snd]. rewrite (A p g (or_introl eq_refl) NB P). exact (IH rule post l' f L N C F A').
Qed.
Lemma regexp_rule compile name pre rule post l f q x rest : newRegexpDB compile (pre ++ rule :: post) = Some l -> m_question q = x :: rest ->
  ~ blank rule -> compile (trim_space rule) = Some f -> f (lower (q_name x)) = true ->
  (forall r g, In r pre -> ~ blank r -> compile (trim_space r) = Some g -> g (lower (q_name x)) = false) ->
  regexp_match name l q = Some (MRes [] [] (Some (name, trim_space rule)) true).
Proof. intros H Q N C F A. unfold regexp_match. rewrite Q, (first_found compile _ pre rule post l f H N C F A). reflexivity. Qed.
