(** C61: the queries plain, DoT and DTLS clients send (dnsclient.go, dotclient.go, dtlsclient.go
    Resolve). *)
From Verif Require Import Base Bytes Dns Modifiers_model Modifiers_spec Listener_spec Client_model Client_spec Client_proofs Client_proofs2.
Local Open Scope N_scope.

(** Plain: the configured size and no padding, nothing else changed *)
Theorem C61_plain size q : opt_wf q -> exists m, sized size q m /\ stripped m (dns_query size q).
Proof. exact (plain_query size q). Qed.
Print Assumptions C61_plain.

(** TLS: the configured size and padding to a multiple of 128 octets, nothing else changed *)
Theorem C61_tls base optlen : (forall d, optlen (PADDING d) = 4 + N.of_nat (length d)) ->
  forall size q q', opt_wf q -> tls_query base optlen size q = Some q' ->
  exists m, sized size q m /\ (no_edns0 m -> q' = m) /\
    (~ no_edns0 m -> msg_len base optlen q' mod 128 = 0 /\ exists n, 0 < n <= 128 /\ opt_edit (repadded n) m q').
Proof. exact (tls_padded base optlen). Qed.
Print Assumptions C61_tls.

(** Examples *)
Definition C61_q : msg := set_extra [new_opt 512 true [PADDING [0]; LOCAL 65001 [1]]] (set_question [Q "a." 1 1] empty_msg).
Example C61_plain_ex : dns_query 1232 C61_q = set_extra [new_opt 1232 true [LOCAL 65001 [1]]] (set_question [Q "a." 1 1] empty_msg).
Proof. vm_compute. reflexivity. Qed.
Example C61_new : dns_query 1232 (set_question [Q "a." 1 1] empty_msg) = set_extra [new_opt 1232 false []] (set_question [Q "a." 1 1] empty_msg).
Proof. vm_compute. reflexivity. Qed.
Example C61_zero : dns_query 0 (set_question [Q "a." 1 1] empty_msg) = set_question [Q "a." 1 1] empty_msg.
Proof. vm_compute. reflexivity. Qed.
Example C61_tls_ex : option_map (fun m => (length (edns0_options m), m_question m)) (tls_query (fun _ => 40) (fun _ => 4) 1232 C61_q) = Some (2%nat, [Q "a." 1 1]).
Proof. vm_compute. reflexivity. Qed.
