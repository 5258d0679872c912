(** C01: the domain blocklist matches exactly the names its rules cover. *)
From Verif Require Import Base DomainDB_model DomainDB_spec DomainDB_proofs2.
Open Scope string_scope.

(** Any list of well-formed lines loads, and a name matches iff some line covers it. *)
Theorem C01_domain_match_exact :
  forall sub rules name q,
    Forall (well_formed sub) rules -> name_labels name q ->
    exists db, newDomainDB sub (OK rules) = OK db /\
      (snd (domainMatch db name) = true <->
       exists line R, In line rules /\ line_rule sub line R /\ covers R q).
Proof. exact domain_exact. Qed.
Print Assumptions C01_domain_match_exact.

(** A covered name matches whatever else (even malformed lines) is in the list. *)
Theorem C01_domain_no_false_negative :
  forall sub rules db name q line R,
    newDomainDB sub (OK rules) = OK db -> name_labels name q ->
    In line rules -> line_rule sub line R -> covers R q ->
    snd (domainMatch db name) = true.
Proof. exact domain_complete. Qed.
Print Assumptions C01_domain_no_false_negative.

(** Order and duplicates do not matter. *)
Theorem C01_domain_order_irrelevant :
  forall sub rules1 rules2 db1 db2 name,
    (forall r, In r rules1 <-> In r rules2) ->
    newDomainDB sub (OK rules1) = OK db1 -> newDomainDB sub (OK rules2) = OK db2 ->
    snd (domainMatch db1 name) = snd (domainMatch db2 name).
Proof. exact domain_order. Qed.
Print Assumptions C01_domain_order_irrelevant.

(** Letter case of the query name does not matter. *)
Theorem C01_domain_case_irrelevant :
  forall db name1 name2,
    lower name1 = lower name2 -> domainMatch db name1 = domainMatch db name2.
Proof. exact domain_case. Qed.
Print Assumptions C01_domain_case_irrelevant.

(** Finding: a malformed line with an empty inner label is accepted and widens the list.
    The list holding only "a..b" matches "x.b" although no line covers that name. *)
Theorem C01_malformed_line_refuted :
  exists rules db name q,
    newDomainDB false (OK rules) = OK db /\ name_labels name q /\
    snd (domainMatch db name) = true /\
    ~ exists line R, In line rules /\ line_rule false line R /\ covers R q.
Proof.
  exists ["a..b"], (match newDomainDB false (OK ["a..b"]) with OK db => db | _ => heap0 end), "x.b.", ["x"; "b"].
  split; [reflexivity|]. split.
  { split; [discriminate|]. split; [repeat constructor|reflexivity]. }
  split; [vm_compute; reflexivity|].
  intros (line & R & [<-|[]] & HR & _).
  destruct (line_parts _ _ _ HR) as [E (_ & Hok)]. vm_compute in E.
  destruct R as [ls|ls|ls]; simpl in *; try discriminate; subst ls.
  apply Forall_cons_iff in Hok. destruct Hok as [_ Hok].
  apply Forall_cons_iff in Hok. destruct Hok as [(H & _) _]. congruence.
Qed.
Print Assumptions C01_malformed_line_refuted.

(** The hypotheses are met by a list exercising sharing, cloning and exact markers. *)
Definition ex_rules : list string :=
  [".Example.com"; "*.test.org"; "exact.net"; "sub.exact.net."; " a.b.example.com "; "test.org"; ".other.com"].

Ltac wf_line R0 := exists R0; exists R0; split; [split; [discriminate|repeat constructor; discriminate]|split; reflexivity].

Example C01_hypotheses_met :
  Forall (well_formed false) ex_rules /\ name_labels "WWW.Test.org." ["www"; "test"; "org"].
Proof.
  split; [|split; [discriminate|split; [repeat constructor|reflexivity]]].
  unfold ex_rules. repeat apply Forall_cons; [..|apply Forall_nil].
  - wf_line (Apex ["example"; "com"]).
  - wf_line (Below ["test"; "org"]).
  - wf_line (Exact ["exact"; "net"]).
  - wf_line (Exact ["sub"; "exact"; "net"]).
  - wf_line (Exact ["a"; "b"; "example"; "com"]).
  - wf_line (Exact ["test"; "org"]).
  - wf_line (Apex ["other"; "com"]).
Qed.

Example C01_runs :
  match newDomainDB false (OK ex_rules) with
  | OK db => map (fun n => snd (domainMatch db n))
       ["www.test.org."; "test.org."; "exact.net"; "x.exact.net"; "sub.exact.net"; "x.y.EXAMPLE.com"; "com"; "x.other.com"]
  | _ => []
  end = [true; true; true; false; true; true; false; true].
Proof. vm_compute; reflexivity. Qed.
