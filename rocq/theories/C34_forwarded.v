(** C34: the address the DoH listener takes for that of the client (dohlistener.go
    extractClientAddress). [parseIP] and [splitHost] stand for net.ParseIP and net.SplitHostPort. *)
From Verif Require Import Base Bytes Dns Cidr_spec Net_spec Router_model Listener_model Listener_spec Listener_proofs2.
Local Open Scope N_scope.

(** Without a proxy network it is that of the peer. *)
Theorem C34_none splitHost parseIP r : extractClientAddress splitHost parseIP None r = parseIP (splitHost (h_remote r)).
Proof. exact (address_none splitHost parseIP r). Qed.
Print Assumptions C34_none.

(** The forwarded address counts exactly if the peer is in the proxy network; otherwise, or if
    there is none, it is that of the peer. *)
Theorem C34_proxy splitHost parseIP parseAddr : (forall s, parseIP s = [] \/ ip_ok (parseIP s)) -> parseIP EmptyString = [] -> parse_ok parseAddr ->
  forall text net r, parse_net parseAddr text = Some net ->
  let peer := parseIP (splitHost (h_remote r)) in
  let trusted := peer <> [] /\ exists a p, net_text parseAddr text a p /\ net_has a p peer in
  (forall x, trusted -> forwarded parseIP (h_xff r) x -> extractClientAddress splitHost parseIP (Some net) r = x) /\
  (~ (trusted /\ exists x, forwarded parseIP (h_xff r) x) -> extractClientAddress splitHost parseIP (Some net) r = peer).
Proof. exact (address_proxy splitHost parseIP parseAddr). Qed.
Print Assumptions C34_proxy.

(** Header lines that agree in the last entry give the same address. *)
Theorem C34_earlier splitHost parseIP : parseIP EmptyString = [] -> forall net r r' e, h_remote r' = h_remote r -> last_entry (h_xff r) e -> last_entry (h_xff r') e ->
  extractClientAddress splitHost parseIP net r = extractClientAddress splitHost parseIP net r'.
Proof. exact (address_earlier splitHost parseIP). Qed.
Print Assumptions C34_earlier.

(** Examples: the proxy is 10.1.1.1 *)
Definition C34_ip (s : string) : bytes :=
  if String.eqb s "10.1.1.1" then [10;1;1;1] else if String.eqb s "1.2.3.4" then [1;2;3;4] else if String.eqb s "127.0.0.1" then [127;0;0;1]
  else if String.eqb s "9.9.9.9" then [9;9;9;9] else [].
Definition C34_addr (peer : string) (xff : list string) : bytes :=
  extractClientAddress (fun s => s) C34_ip (Some (Net.IPNet [10;0;0;0] [255;0;0;0])) (HttpReq "GET" [] "" [] false None peer xff "/").
Example C34_trusted : C34_addr "10.1.1.1" ["9.9.9.9, 1.2.3.4"]%string = [1;2;3;4].
Proof. vm_compute. reflexivity. Qed.
Example C34_lines : C34_addr "10.1.1.1" ["9.9.9.9, 8"; " 1.2.3.4 "]%string = [1;2;3;4].
Proof. vm_compute. reflexivity. Qed.
Example C34_untrusted : C34_addr "9.9.9.9" ["1.2.3.4"]%string = [9;9;9;9].
Proof. vm_compute. reflexivity. Qed.
Example C34_loopback : C34_addr "10.1.1.1" ["1.2.3.4, 127.0.0.1"]%string = [10;1;1;1].
Proof. vm_compute. reflexivity. Qed.
Example C34_junk : C34_addr "10.1.1.1" ["1.2.3.4,"]%string = [10;1;1;1].
Proof. vm_compute. reflexivity. Qed.
Example C34_entry : last_entry ["9.9.9.9, 8"; "7,1.2.3.4"]%string "1.2.3.4" /\ ~ loopback [1;2;3;4] /\ loopback [127;0;0;1].
Proof.
  split; [exists ["9.9.9.9, 8"%string], "7,1.2.3.4"%string; split; [reflexivity|]; split; [reflexivity|right; exists "7"%string; reflexivity]|].
  split; [intros [H|H]; vm_compute in H; discriminate H|left; reflexivity].
Qed.
