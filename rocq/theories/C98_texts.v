(** C98: the functions on texts that rules, names, addresses and settings are read and written with. Texts are of octets; letters are those of ASCII. *)
From Verif Require Import Base Base_proofs Bytes Cidr_spec Router_model Router_proofs Redis_model Addr_model Text_spec Text_proofs Text_proofs2 Port_spec Port_proofs.
Local Open Scope string_scope.

(** strings.ToLower, strings.ToUpper, strings.EqualFold *)
Theorem C98_lower s t : lower s = t <-> chars2 small s t.
Proof. exact (lower_iff s t). Qed.
Print Assumptions C98_lower.
Theorem C98_upper s t : upper s = t <-> chars2 large s t.
Proof. exact (upper_iff s t). Qed.
Print Assumptions C98_upper.
Theorem C98_fold a b : equal_fold a b = true <-> chars2 alike a b.
Proof. exact (fold_iff a b). Qed.
Print Assumptions C98_fold.
(** strings.Contains, strings.HasPrefix, strings.TrimSuffix, strings.TrimSpace *)
Theorem C98_contains c s : contains c s = true <-> occurs c s.
Proof. exact (contains_iff c s). Qed.
Print Assumptions C98_contains.
Theorem C98_prefix p s : has_prefix p s = true <-> exists r, s = p ++ r.
Proof. exact (prefix_iff p s). Qed.
Print Assumptions C98_prefix.
Theorem C98_suffix c s t : trim_suffix c s = t <-> s = t ++ String c "" \/ (s = t /\ forall u, s <> u ++ String c "").
Proof. exact (suffix_iff c s t). Qed.
Print Assumptions C98_suffix.
Theorem C98_trim s t : trim_space s = t <-> trimmed s t.
Proof. exact (trim_iff s t). Qed.
Print Assumptions C98_trim.
(** strings.Split and strings.Fields *)
Theorem C98_split c s l : split c s = l <-> parts c s l.
Proof. exact (split_parts c s l). Qed.
Print Assumptions C98_split.
Theorem C98_fields s l : fields s = l <-> words s l.
Proof. exact (fields_iff s l). Qed.
Print Assumptions C98_fields.
(** strconv.FormatUint and strconv.Atoi *)
Theorem C98_itoa n : shown n (itoa n).
Proof. exact (itoa_shown n). Qed.
Print Assumptions C98_itoa.
Theorem C98_atoi s n : atoi s = Some n <-> whole s n.
Proof. exact (whole_iff s n). Qed.
Print Assumptions C98_atoi.
(** dns.Fqdn, for names that do not end in an escaped dot *)
Theorem C98_fqdn s t : fqdn s = t <-> (s = t /\ exists u, s = u ++ ".") \/ (t = s ++ "." /\ forall u, s <> u ++ ".").
Proof. exact (fqdn_iff s t). Qed.
Print Assumptions C98_fqdn.

(** Examples *)
Example C98_ex_case : lower "Ab-Z[" = "ab-z[" /\ upper "aB-z{" = "AB-Z{" /\ equal_fold "aB" "Ab" = true /\ equal_fold "@" "`" = false.
Proof. repeat split. Qed.
Example C98_ex_trim : trim_space (String "009" " a b " ++ String "010" "") = "a b" /\ fields " a  b" = ["a"; "b"] /\ split "," "a,,b," = ["a"; ""; "b"; ""].
Proof. repeat split. Qed.
Example C98_ex_numbers : itoa 0 = "0" /\ itoa 1205 = "1205" /\ atoi "-07" = Some (-7)%Z /\ atoi "" = None /\ atoi "1x" = None.
Proof. repeat split. Qed.
Example C98_ex_dot : fqdn "a" = "a." /\ fqdn "a." = "a." /\ fqdn "" = "." /\ trim_suffix "." "a.." = "a.".
Proof. repeat split. Qed.
