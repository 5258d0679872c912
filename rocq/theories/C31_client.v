(** C31: client blocklists (client-blocklist.go). *)
From Verif Require Import Base Bytes Dns Cidr_spec Net_spec Modifiers_spec Lists_model Blocklist_model Blocklist_spec Blocklist_proofs.
Local Open Scope N_scope.

(** The address that counts: that of the first client-subnet option if that is configured and there
    is one, otherwise the client's. *)
Theorem C31_client resolve db useECS hasBlock q ci a : opt_wf q -> client_addr useECS q ci a ->
  (a <> [] -> on_list db a -> hasBlock = true -> client_resolve resolve db useECS hasBlock q ci = ([(BlocklistResolver, q, ci)], resolve BlocklistResolver q ci)) /\
  (a <> [] -> on_list db a -> hasBlock = false -> exists m, client_resolve resolve db useECS hasBlock q ci = ([], Ans m) /\ reply q 5 [] [] m) /\
  (a = [] \/ ~ on_list db a -> client_resolve resolve db useECS hasBlock q ci = ([(Upstream, q, ci)], resolve Upstream q ci)).
Proof. exact (client_claims resolve db useECS hasBlock q ci a). Qed.
Print Assumptions C31_client.
(** There always is exactly one such address. *)
Theorem C31_addr useECS q ci : opt_wf q -> exists a, client_addr useECS q ci a /\ forall b, client_addr useECS q ci b -> b = a.
Proof. exact (client_addr_unique useECS q ci). Qed.
Print Assumptions C31_addr.

Definition ex_q (o : list edns0) : msg := Msg 7 false 0 false false true false false false 0 [Q "a." 1 1] [] [] [RR "." 41 4096 0 (DOPT o)].
Definition ex_db (ip : bytes) : option (string * string) := match ip with 10 :: _ => Some ("l", "10.0.0.0/8")%string | _ => None end.
Example C31_ex :
  let f o use ip := map (fun c => fst (fst c)) (fst (client_resolve (fun _ _ _ => Drop) ex_db use true (ex_q o) (Client ip "" "" ""))) in
  f [] false [10;0;0;1] = [BlocklistResolver] /\
  f [ECS 1 24 0 [11;0;0;0]] false [10;0;0;1] = [BlocklistResolver] /\
  f [ECS 1 24 0 [11;0;0;0]; ECS 1 24 0 [10;0;0;0]] true [10;0;0;1] = [Upstream] /\
  f [] true [10;0;0;1] = [BlocklistResolver] /\
  f [] false [] = [Upstream] /\ f [] false [11;0;0;1] = [Upstream].
Proof. vm_compute. repeat split. Qed.
Example C31_ex_wf o : opt_wf (ex_q o).
Proof. constructor; [intros _; exists o; reflexivity|constructor]. Qed.
