(** C63: lists by location (geoip-db.go) and by autonomous system (asn-db.go), and combined address lists (ip-db-multi.go). *)
From Verif Require Import Base Bytes Cidr_spec Redis_model Geo_model Geo_spec Geo_proofs.
Local Open Scope N_scope.

(** A list loads exactly if every line is blank, a comment, or a number of 64 bits, with or without a comment behind it. *)
Theorem C63_load : forall rules, (exists db, newIDs rules = Some db) <-> Forall loadable rules.
Proof. exact new_ok. Qed.
Print Assumptions C63_load.
(** An address matches exactly if the database places it in a continent, country, city or subdivision that the list names; the rule reported
    is the first such number, in this order. *)
Theorem C63_match : forall name rules db (lookup : bytes -> option place) ip m, newIDs rules = Some db ->
  (geo_match name db lookup ip = Some m <->
   exists r before id after, lookup ip = Some r /\ p_continent r :: p_country r :: p_city r :: p_subdivisions r = before ++ id :: after /\
     Forall (fun x => ~ named rules x) before /\ named rules id /\ m = (name, itoa id)).
Proof. exact geo_matches. Qed.
Print Assumptions C63_match.
Theorem C63_no_match : forall name rules db (lookup : bytes -> option place) ip, newIDs rules = Some db ->
  (geo_match name db lookup ip = None <-> forall r, lookup ip = Some r -> ~ named rules (p_continent r) /\ ~ named rules (p_country r) /\ ~ named rules (p_city r) /\ forall s, In s (p_subdivisions r) -> ~ named rules s).
Proof. exact geo_no_match. Qed.
Print Assumptions C63_no_match.
Theorem C63_asn : forall name rules db (lookup : bytes -> option N) ip m, newIDs rules = Some db ->
  (asn_match name db lookup ip = Some m <-> exists n, lookup ip = Some n /\ named rules n /\ m = (name, itoa n)).
Proof. exact asn_matches. Qed.
Print Assumptions C63_asn.
(** But what the database does not know counts as number 0, which a list may name. *)
Theorem C63_zero_refuted : exists rules db, newIDs rules = Some db /\ (forall name (lookup : bytes -> option N) ip, lookup ip = Some 0 -> asn_match name db lookup ip <> None) /\
  (forall name (lookup : bytes -> option place) ip subs continent country, lookup ip = Some (Place continent country 0 subs) -> geo_match name db lookup ip <> None).
Proof. exact zero_rule. Qed.
Print Assumptions C63_zero_refuted.
(** Several lists: the first that matches decides, and there is no match exactly if none of them matches. *)
Theorem C63_first : forall (dbs : list (bytes -> option bmatch)) ip m, multi_match dbs ip = Some m <-> exists before db after, dbs = before ++ db :: after /\ Forall (fun d => d ip = None) before /\ db ip = Some m.
Proof. exact multi_first. Qed.
Print Assumptions C63_first.
Theorem C63_none : forall (dbs : list (bytes -> option bmatch)) ip, multi_match dbs ip = None <-> forall db, In db dbs -> db ip = None.
Proof. exact multi_none. Qed.
Print Assumptions C63_none.
(** Closing them closes every one, whatever errors there are, and reports the first error. *)
Theorem C63_close : forall dbs i e, fst (multi_close dbs i e) = seq i (length dbs).
Proof. exact close_all. Qed.
Print Assumptions C63_close.
Theorem C63_close_error : forall dbs i x, snd (multi_close dbs i None) = Some x <-> exists before after, dbs = before ++ Some x :: after /\ Forall (fun e => e = None) before.
Proof. exact close_some. Qed.
Print Assumptions C63_close_error.
Theorem C63_close_ok : forall dbs i, snd (multi_close dbs i None) = None <-> Forall (fun e => e = None) dbs.
Proof. exact close_none. Qed.
Print Assumptions C63_close_ok.

Example C63_rules : newIDs ["# Europe"; " 6255148 # EU"; ""; "2635167"]%string = Some [2635167; 6255148].
Proof. exact demo_rules. Qed.
Example C63_too_large : newIDs ["18446744073709551616"]%string = None /\ newIDs ["18446744073709551615"]%string = Some [18446744073709551615] /\ newIDs ["AS64512"]%string = None.
Proof. vm_compute. repeat split. Qed.
Example C63_uk : let lookup := fun ip => match ip with [81; 2; 69; 142] => Some (Place 6255148 2635167 2643743 [6269131]) | _ => None end in
  geo_match "geo" [2635167; 6255148] lookup [81; 2; 69; 142] = Some ("geo", "6255148")%string /\ geo_match "geo" [6269131] lookup [81; 2; 69; 142] = Some ("geo", "6269131")%string /\
  geo_match "geo" [6269131] lookup [1; 2; 3; 4] = None.
Proof. vm_compute. repeat split. Qed.
Example C63_multi : multi_match [geo_match "a" [5] (fun _ => None); asn_match "b" [7] (fun _ => Some 7)] [1; 2; 3; 4] = Some ("b", "7")%string /\
  multi_close [None; Some "x"; Some "y"]%string 0 None = ([0; 1; 2]%nat, Some "x"%string).
Proof. vm_compute. split; reflexivity. Qed.
