(** C23: padding (padding.go). [base] and [optlen] describe the length of messages: the DNS
    library's Len() of a message is the length of the rest plus that of its EDNS0 options. *)
From Verif Require Import Base Bytes Dns Modifiers_model Modifiers_spec Modifiers_proofs Modifiers_proofs2.
Local Open Scope N_scope.

(** A padded query is a multiple of 128 octets long; only padding options change. *)
Theorem C23_query base optlen : (forall d, optlen (PADDING d) = 4 + N.of_nat (length d)) ->
  forall q q', opt_wf q -> padQuery base optlen q = Some q' ->
  (no_edns0 q -> q' = q) /\
  (~ no_edns0 q -> msg_len base optlen q' mod 128 = 0 /\ exists n, 0 < n <= 128 /\ opt_edit (repadded n) q q').
Proof. exact (pad_query base optlen). Qed.
Print Assumptions C23_query.

(** A padded response has the [target] length for the size the client advertises; responses to
    clients without EDNS0 are left alone. *)
Theorem C23_answer base optlen : (forall d, optlen (PADDING d) = 4 + N.of_nat (length d)) ->
  forall q a a', opt_wf q -> opt_wf a -> padAnswer base optlen q a = Some a' ->
  (no_edns0 q -> a' = a) /\
  (forall pre o post, m_extra q = pre ++ o :: post -> rr_type o = 41 -> Forall (fun x => rr_type x <> 41) post ->
   exists n, n <= 468 /\ n <= msg_len base optlen a' /\
     msg_len base optlen a' = target (rr_class o) (msg_len base optlen a' - n) /\
     (opt_edit (repadded n) a a' \/
      exists opts, repadded n [] opts /\ opt_new (rr_class o) (if N.testbit (rr_ttl o) 15 then 2^15 else 0) opts a a')).
Proof. exact (pad_answer base optlen). Qed.
Print Assumptions C23_answer.

(** Neither panics (buffer overrun included) unless an option with the code of padding is of
    another type. *)
Theorem C23_query_total base optlen q : opt_wf q -> (padQuery base optlen q = None <->
  exists pre r post opts, m_extra q = pre ++ r :: post /\ rr_type r = 41 /\ Forall (fun x => rr_type x <> 41) post /\
    rr_data r = DOPT opts /\ ~ padding_typed opts).
Proof. exact (pad_query_total base optlen q). Qed.
Print Assumptions C23_query_total.

Theorem C23_answer_total base optlen q a : opt_wf q -> opt_wf a -> padAnswer base optlen q a = None ->
  exists pre r post opts, m_extra a = pre ++ r :: post /\ rr_type r = 41 /\ Forall (fun x => rr_type x <> 41) post /\
    rr_data r = DOPT opts /\ ~ padding_typed opts.
Proof. exact (pad_answer_total base optlen q a). Qed.
Print Assumptions C23_answer_total.

(** That happens: the query an EDNS0 modifier configured with code 12 forwards makes a DoT client
    panic. *)
Theorem C23_modifier_refuted base optlen q data : opt_wf q -> padQuery base optlen (EDNS0ModifierAdd 12 data q) = None.
Proof. exact (modifier_panics base optlen q data). Qed.
Print Assumptions C23_modifier_refuted.

(** Messages on plain transports keep no padding and lose nothing else. *)
Theorem C23_strip m : opt_wf m ->
  (no_edns0 m -> stripPadding m = m) /\
  (~ no_edns0 m -> opt_edit (without (fun o => opt_code o = 12)) m (stripPadding m)).
Proof. exact (strip_padding m). Qed.
Print Assumptions C23_strip.

(** Examples: base length 40, options with 4 octets of header *)
Definition C23_len (o : edns0) : N := match o with PADDING d => 4 + N.of_nat (length d) | LOCAL _ d => 4 + N.of_nat (length d) | _ => 12 end.
Definition C23_q (size : N) : msg := set_extra [new_opt size false [LOCAL 65001 [1;2]; PADDING [7]]] empty_msg.
Definition C23_paddings (m : option msg) : option (list (N * N)) :=
  option_map (fun m => map (fun o => (opt_code o, C23_len o)) (edns0_options m)) m.
Example C23_query_ex : C23_paddings (padQuery (fun _ => 40) C23_len (C23_q 1232)) = Some [(65001, 6); (12, 82)].
Proof. vm_compute. reflexivity. Qed.
Example C23_answer_ex : C23_paddings (padAnswer (fun _ => 300) C23_len (C23_q 1232) empty_msg) = Some [(12, 168)].
Proof. vm_compute. reflexivity. Qed.
Example C23_answer_small : C23_paddings (padAnswer (fun _ => 300) C23_len (C23_q 400) empty_msg) = Some [(12, 100)].
Proof. vm_compute. reflexivity. Qed.
Example C23_answer_toobig : C23_paddings (padAnswer (fun _ => 500) C23_len (C23_q 400) empty_msg) = Some [(12, 4)].
Proof. vm_compute. reflexivity. Qed.
Example C23_wf : opt_wf (C23_q 1232) /\ ~ no_edns0 (C23_q 1232).
Proof. split; [repeat constructor; eexists; reflexivity|]. intros H. inversion H as [|? ? H1]. apply H1. reflexivity. Qed.
