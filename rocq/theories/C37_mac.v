(** C37: MAC address lists (mac-db.go). *)
From Verif Require Import Base Bytes Dns Cidr_spec Modifiers_spec Lists_model Lists_spec Lists_proofs.
Local Open Scope N_scope.

(** A text parses to m exactly if it is m written as six two-digit groups, in any letter case. *)
Theorem C37_parse s m : parseMAC s = Some m <-> is_mac s m.
Proof. exact (parse_mac s m). Qed.
Print Assumptions C37_parse.

(** A list loads exactly if every rule (line that is not blank or a comment) is an address, and
    then holds exactly these. *)
Theorem C37_load rules :
  (forall macs, newMACDB rules = Some macs -> forall m, In m macs <-> exists r, In r rules /\ ~ blank r /\ is_mac (trim_space r) m) /\
  (newMACDB rules <> None <-> forall r, In r rules -> ~ blank r -> exists m, is_mac (trim_space r) m).
Proof. exact (mac_load rules). Qed.
Print Assumptions C37_load.

(** A query matches exactly if its MAC address option is on the list; the rule reported is the address in hex. *)
Theorem C37_match name macs q : opt_wf q ->
  (forall m, client_mac q m -> In m macs -> bytes_ok m -> exists s, hex_text m s /\ mac_match name macs q = MRes [] [] (Some (name, s)) true) /\
  (mr_ok (mac_match name macs q) = true -> exists m, client_mac q m /\ In m macs) /\
  (mr_ok (mac_match name macs q) = false -> mac_match name macs q = no_match).
Proof. exact (mac_match_text name macs q). Qed.
Print Assumptions C37_match.

Example C37_ex : map parseMAC ["01:23:45:ab:CD:ef"; "01:23:45:ab:cd"; "01-23-45-ab-cd-ef"; "01:23:45:ab:cd:eg"; "01:23:45:ab:c::ef"; "::::::::::::::::"]%string =
  [Some [1; 35; 69; 171; 205; 239]; None; None; None; None; None].
Proof. vm_compute. reflexivity. Qed.
Example C37_ex_is : is_mac "01:23:45:ab:CD:ef" [1; 35; 69; 171; 205; 239].
Proof. split; [reflexivity|]. split; [repeat constructor|reflexivity]. Qed.
Example C37_ex_rule : hex_text [1; 35; 171] "0123ab" /\ bytes_ok [1; 35; 171].
Proof. split; [apply (hex_cons 0 1), (hex_cons 2 3), (hex_cons 10 11); reflexivity || constructor|repeat constructor]. Qed.
(** Of several options the last with six octets counts. *)
Example C37_ex_match :
  let q o := Msg 1 false 0 false false true false false false 0 [Q "a." 1 1] [] [] [RR "." 41 4096 0 (DOPT o)] in
  let l := [[1;2;3;4;5;6]] in
  map (fun o => mr_ok (mac_match "l" l (q o)))
    [[LOCAL 65001 [1;2;3;4;5;6]]; [LOCAL 65001 [1;2;3;4;5;6]; LOCAL 65001 [9;9]]; [LOCAL 65001 [1;2;3;4;5;6]; LOCAL 65001 [1;2;3;4;5;7]]; [LOCAL 65002 [1;2;3;4;5;6]]; []] =
  [true; true; false; false; false].
Proof. vm_compute. reflexivity. Qed.
