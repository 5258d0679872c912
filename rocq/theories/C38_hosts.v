(** C38: hosts-format lists (blocklistdb-hosts.go). *)
From Verif Require Import Base Bytes Dns Cidr_spec Net_spec Lists_model Lists_spec Lists_proofs Lists_proofs2.
Local Open Scope N_scope.

(** A query that is not PTR matches exactly if a line has its name, and gets the addresses given
    for the name in the order of the lines, of the family asked for, at most eleven. A PTR query
    matches exactly if lines have the address, and gets all names given for it. *)
Theorem C38_hosts parseIP reverseAddr : ip_texts_ok parseIP reverseAddr -> forall name lines q x rest, m_question q = x :: rest ->
  exists r, hosts_match name (newHostsDB parseIP reverseAddr lines) q = Some r /\
    (q_type x = 12 -> mr_ips r = [] /\ mr_names r = names_of reverseAddr (q_name x) lines /\
                      (mr_ok r = true <-> names_of reverseAddr (q_name x) lines <> [])) /\
    (q_type x <> 12 -> mr_names r = [] /\ (mr_ok r = true <-> named (q_name x) lines) /\
       mr_ips r = firstn 11 (addrs_of parseIP (q_type x =? 1) (q_name x) lines)).
Proof. exact (hosts_spec parseIP reverseAddr). Qed.
Print Assumptions C38_hosts.

(** What the blocklist relies on: matches have a list and rule, addresses are addresses or nil. *)
Theorem C38_fine parseIP reverseAddr name lines q x rest : ip_texts_ok parseIP reverseAddr -> m_question q = x :: rest ->
  exists r, hosts_match name (newHostsDB parseIP reverseAddr lines) q = Some r /\ (mr_ok r = true -> mr_match r <> None) /\
    Forall (fun ip => ip = [] \/ ip_ok ip) (mr_ips r).
Proof. exact (hosts_fine parseIP reverseAddr name lines q x rest). Qed.
Print Assumptions C38_fine.

(** Concrete address functions for examples: a few addresses *)
Definition ex_v4 (a b c d : N) : bytes := [0;0;0;0;0;0;0;0;0;0;255;255;a;b;c;d].
Definition ex_ip (s : string) : bytes :=
  if String.eqb s "0.0.0.0" then ex_v4 0 0 0 0 else if String.eqb s "10.0.0.1" then ex_v4 10 0 0 1
  else if String.eqb s "10.0.0.2" then ex_v4 10 0 0 2 else if String.eqb s "::1" then repeat 0 15 ++ [1] else [].
Definition ex_rev (s : string) : option string :=
  if String.eqb s "10.0.0.1" then Some "1.0.0.10.in-addr.arpa."%string else None.
Example C38_ex_ok : ip_texts_ok ex_ip ex_rev.
Proof.
  split; intros s; unfold ex_ip, ex_rev.
  - destruct (String.eqb s "0.0.0.0"); [right; split; [reflexivity|repeat constructor]|].
    destruct (String.eqb s "10.0.0.1"); [right; split; [reflexivity|repeat constructor]|].
    destruct (String.eqb s "10.0.0.2"); [right; split; [reflexivity|repeat constructor]|].
    destruct (String.eqb s "::1"); [right; split; [reflexivity|repeat constructor]|left; reflexivity].
  - intros r. destruct (String.eqb s "10.0.0.1"); [|discriminate]. intros H. injection H as <-. reflexivity.
Qed.
Definition ex_lines : list string :=
  ["# comment"; "10.0.0.1 a.com B.com."; " 10.0.0.2   b.COM # x"; "::1 b.com"; "0.0.0.0 bad.com"; "10.0.0.2"; "nonsense c.com"]%string.
Definition ex_ask (n : string) (t : N) : msg := Msg 1 false 0 false false true false false false 0 [Q n t 1] [] [] [].
Example C38_ex :
  let m n t := option_map (fun r => (mr_ok r, mr_ips r, mr_names r)) (hosts_match "l" (newHostsDB ex_ip ex_rev ex_lines) (ex_ask n t)) in
  m "b.com."%string 1 = Some (true, [ex_v4 10 0 0 1; ex_v4 10 0 0 2], []) /\
  m "b.com."%string 28 = Some (true, [repeat 0 15 ++ [1]], []) /\
  m "a.com."%string 28 = Some (true, [], []) /\
  m "bad.com."%string 1 = Some (true, [[]], []) /\
  m "c.com."%string 28 = Some (true, [[]], []) /\
  m "d.com."%string 1 = Some (false, [], []) /\
  m "x."%string 1 = Some (true, [ex_v4 10 0 0 2], []) /\
  m "1.0.0.10.IN-addr.arpa."%string 12 = Some (true, [], ["a.com"; "B.com."]%string).
Proof. vm_compute. repeat split. Qed.
(** Although maxHostsResponses is 10, eleven addresses are kept. *)
Example C38_limit_refuted :
  option_map (fun r => length (mr_ips r)) (hosts_match "l" (newHostsDB ex_ip ex_rev (repeat "10.0.0.1 a.com"%string 20)) (ex_ask "a.com." 1)) = Some 11%nat.
Proof. vm_compute. reflexivity. Qed.
