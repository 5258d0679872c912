(** C02: load errors and the reported rule of a domain blocklist. *)
From Verif Require Import Base DomainDB_model DomainDB_spec DomainDB_proofs2.
Open Scope string_scope.

(** Loading fails exactly for a misplaced wildcard; otherwise it succeeds (no panic). *)
Theorem C02_domain_load_fails_iff :
  forall sub rules,
    ((exists e, newDomainDB sub (OK rules) = Fail e) <-> Exists (misplaced_star sub) rules)
    /\ (~ Exists (misplaced_star sub) rules -> exists db, newDomainDB sub (OK rules) = OK db).
Proof. exact load_fails_iff. Qed.
Print Assumptions C02_domain_load_fails_iff.

(** The rule reported for a match is the text of a rule of the list that covers the name. *)
Theorem C02_domain_reported_rule :
  forall sub rules db name q,
    newDomainDB sub (OK rules) = OK db -> Forall (well_formed sub) rules -> name_labels name q ->
    snd (domainMatch db name) = true ->
    exists line R, In line rules /\ line_rule sub line R /\ covers R q /\
                   fst (domainMatch db name) = rule_text R.
Proof. exact domain_sound. Qed.
Print Assumptions C02_domain_reported_rule.

Example C02_both_outcomes :
  (exists e, newDomainDB false (OK ["ok.com"; "a*.com"]) = Fail e) /\
  (exists e, newDomainDB false (OK ["a.*.com"]) = Fail e) /\
  (exists e, newDomainDB true (OK ["*"]) = Fail e) /\
  (exists db, newDomainDB false (OK ["*.com"; "ok.com"]) = OK db /\
              domainMatch db "www.ok.COM." = ("*.com", true)).
Proof. repeat split; eexists; [vm_compute; reflexivity..|]. split; [reflexivity|vm_compute; reflexivity]. Qed.
