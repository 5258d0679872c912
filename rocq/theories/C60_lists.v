(** C60: regular expression lists and combined lists (blocklistdb-regexp.go, blocklistdb-multi.go). *)
From Verif Require Import Base Bytes Dns Cidr_spec Lists_model Lists_proofs2 Regexp_proofs.
Local Open Scope N_scope.

(** A list of regular expressions loads exactly if every rule compiles, and holds exactly these. *)
Theorem C60_regexp_load compile rules :
  (forall l, newRegexpDB compile rules = Some l -> forall t f, In (t, f) l <-> exists r, In r rules /\ ~ blank r /\ trim_space r = t /\ compile t = Some f) /\
  (newRegexpDB compile rules <> None <-> forall r, In r rules -> ~ blank r -> compile (trim_space r) <> None).
Proof. exact (regexp_load compile rules). Qed.
Print Assumptions C60_regexp_load.
(** It matches exactly the names some rule matches, in lower case. *)
Theorem C60_regexp compile name rules l q x rest : newRegexpDB compile rules = Some l -> m_question q = x :: rest ->
  exists r, regexp_match name l q = Some r /\ mr_ips r = [] /\ mr_names r = [] /\
   (mr_ok r = true <-> exists t f, (exists rule, In rule rules /\ ~ blank rule /\ trim_space rule = t) /\ compile t = Some f /\ f (lower (q_name x)) = true) /\
   (mr_ok r = false -> mr_match r = None).
Proof. exact (regexp_spec compile name rules l q x rest). Qed.
Print Assumptions C60_regexp.
(** It reports its own name and, of the rules that match, the first. *)
Theorem C60_rule compile name pre rule post l f q x rest : newRegexpDB compile (pre ++ rule :: post) = Some l -> m_question q = x :: rest ->
  ~ blank rule -> compile (trim_space rule) = Some f -> f (lower (q_name x)) = true ->
  (forall r g, In r pre -> ~ blank r -> compile (trim_space r) = Some g -> g (lower (q_name x)) = false) ->
  regexp_match name l q = Some (MRes [] [] (Some (name, trim_space rule)) true).
Proof. exact (regexp_rule compile name pre rule post l f q x rest). Qed.
Print Assumptions C60_rule.
(** Several lists match exactly if one does; the result is that of the first that does. *)
Theorem C60_multi (dbs : list (msg -> option mres)) q : (forall db, In db dbs -> db q <> None) ->
  exists r, multi_match dbs q = Some r /\
   (mr_ok r = true <-> exists pre db post x, dbs = pre ++ db :: post /\ db q = Some x /\ mr_ok x = true) /\
   (mr_ok r = false -> r = no_match) /\
   (forall pre db post x, dbs = pre ++ db :: post -> db q = Some x -> mr_ok x = true ->
      (forall d y, In d pre -> d q = Some y -> mr_ok y = false) -> r = x).
Proof. exact (multi_spec dbs q). Qed.
Print Assumptions C60_multi.

Definition ex_compile (s : string) : option (string -> bool) :=
  if has_prefix "(" s then None else Some (fun n => has_prefix s n).
Definition ex_q (n : string) : msg := Msg 1 false 0 false false true false false false 0 [Q n 1 1] [] [] [].
Example C60_ex : option_map (fun l => map (fun n => option_map mr_ok (regexp_match "l" l (ex_q n))) ["AD.com."; "bad."; "x."]%string)
    (newRegexpDB ex_compile [" ad"; "# no"; ""; "bad"]%string) = Some [Some true; Some true; Some false] /\
  newRegexpDB ex_compile ["ad"; "("]%string = None.
Proof. vm_compute. split; reflexivity. Qed.
Example C60_ex_multi : option_map mr_match (multi_match [fun _ => Some no_match; fun _ => Some (MRes [] [] (Some ("b", "1"))%string true); fun _ => Some (MRes [] [] (Some ("c", "2"))%string true)] (ex_q "a.")) = Some (Some ("b", "1")%string).
Proof. reflexivity. Qed.
Example C60_ex_rule : option_map (fun l => option_map mr_match (regexp_match "l" l (ex_q "bad.com."))) (newRegexpDB ex_compile [" ad"; "ba"; "bad"]%string) = Some (Some (Some ("l", "ba")%string)).
Proof. reflexivity. Qed.
