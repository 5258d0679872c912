(** C28: query blocklists (blocklist.go). *)
From Verif Require Import Base Bytes Dns Cidr_spec Net_spec Lists_model Blocklist_model Blocklist_spec Blocklist_proofs.
Local Open Scope N_scope.

(** A query on the allowlist goes unchanged to the allowlist-resolver if there is one, otherwise
    upstream, and that answer is returned; the blocklist does not matter. *)
Theorem C28_allowed resolve allowDB blockDB hasAllow hasBlock t q ci x rest db : m_question q = x :: rest ->
  allowDB = Some db -> db_fine db q -> listed db q ->
  blocklist_resolve resolve allowDB blockDB hasAllow hasBlock t q ci =
  Some (let w := if hasAllow then AllowlistResolver else Upstream in ([(w, q, ci)], resolve w q ci)).
Proof. exact (bl_allowed resolve allowDB blockDB hasAllow hasBlock t q ci x rest db). Qed.
Print Assumptions C28_allowed.

(** A query on neither list goes upstream unchanged. *)
Theorem C28_passed resolve allowDB blockDB hasAllow hasBlock t q ci x rest : m_question q = x :: rest ->
  (forall db, allowDB = Some db -> db_fine db q /\ ~ listed db q) -> db_fine blockDB q -> ~ listed blockDB q ->
  blocklist_resolve resolve allowDB blockDB hasAllow hasBlock t q ci = Some ([(Upstream, q, ci)], resolve Upstream q ci).
Proof. exact (bl_passed resolve allowDB blockDB hasAllow hasBlock t q ci x rest). Qed.
Print Assumptions C28_passed.

(** A query only on the blocklist never goes upstream. If it asks for names (PTR) and the list has
    some, these are the answer, at most ten; otherwise it goes to the blocklist-resolver; without
    one the answer has the addresses of the list that are of the type asked for, or is NXDOMAIN with
    the configured extended error. *)
Theorem C28_blocked resolve allowDB blockDB hasAllow hasBlock t q ci x rest r : m_question q = x :: rest ->
  (forall db, allowDB = Some db -> db_fine db q /\ ~ listed db q) -> db_fine blockDB q -> blockDB q = Some r -> mr_ok r = true ->
  exists calls out, blocklist_resolve resolve allowDB blockDB hasAllow hasBlock t q ci = Some (calls, out) /\
    (q_type x = 12 /\ mr_names r <> [] ->
       calls = [] /\ exists a, out = Ans a /\ reply q 0 (map (fun n => ptr_record x (fqdn n)) (firstn 10 (mr_names r))) [] a) /\
    (~ (q_type x = 12 /\ mr_names r <> []) -> hasBlock = true -> calls = [(BlocklistResolver, q, ci)] /\ out = resolve BlocklistResolver q ci) /\
    (~ (q_type x = 12 /\ mr_names r <> []) -> hasBlock = false ->
       calls = [] /\ exists a l, out = Ans a /\ spoofed x (mr_ips r) l /\
         (l <> [] -> reply q 0 l [] a) /\ (l = [] -> reply q 3 [] (error_records (ede_of t) q (mr_match r)) a)).
Proof. exact (bl_blocked resolve allowDB blockDB hasAllow hasBlock t q ci x rest r). Qed.
Print Assumptions C28_blocked.

Definition ex_q (n : string) (t : N) : msg := Msg 7 false 0 false false true false false false 0 [Q n t 1] [] [] [].
Definition ex_ci : client := Client [1;2;3;4] "" "" "".
Definition ex_block (q : msg) : option mres :=
  Some (if has_prefix "bad" (qName q) then MRes [[10;0;0;1]; []] ["x.com"%string] (Some ("l", "bad")%string) true else no_match).
Definition ex_allow (q : msg) : option mres :=
  Some (if has_prefix "bad.ok" (qName q) then MRes [] [] (Some ("w", "bad.ok")%string) true else no_match).
Definition ex_up (w : target) (q : msg) (ci : client) : result := match w with BlocklistResolver => Drop | _ => Ans (servfail q) end.
Example C28_ex_fine q : db_fine ex_block q /\ db_fine ex_allow q.
Proof.
  split; unfold ex_block, ex_allow; eexists; (split; [reflexivity|]).
  - destruct (has_prefix "bad" (qName q)); (split; [intros H; discriminate|]); cbn [mr_ips no_match].
    + constructor; [right; split; [repeat constructor|left; reflexivity]|]. constructor; [left; reflexivity|constructor].
    + constructor.
  - destruct (has_prefix "bad.ok" (qName q)); (split; [intros H; discriminate|]); constructor.
Qed.
Example C28_ex :
  let f hb n t := option_map (fun r => (map (fun c => fst (fst c)) (fst r), match snd r with Ans m => Some (m_rcode m, map rr_data (m_answer m)) | _ => None end))
                   (blocklist_resolve ex_up (Some ex_allow) ex_block false hb None (ex_q n t) ex_ci) in
  f false "bad.com."%string 1 = Some ([], Some (0, [DA [10;0;0;1]])) /\
  f false "bad.com."%string 28 = Some ([], Some (3, [])) /\
  f false "bad.com."%string 12 = Some ([], Some (0, [DPTR "x.com."])) /\
  f true "bad.com."%string 1 = Some ([BlocklistResolver], None) /\
  f true "bad.ok."%string 1 = Some ([Upstream], Some (2, [])) /\
  f true "good."%string 1 = Some ([Upstream], Some (2, [])).
Proof. vm_compute. repeat split. Qed.
