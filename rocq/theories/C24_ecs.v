(** C24: the client-subnet modifier (ecs-modifier.go). *)
From Verif Require Import Base Bytes Dns Net Cidr_spec Modifiers_model Modifiers_spec Modifiers_proofs Modifiers_proofs2.
Local Open Scope N_scope.

(** 'delete' removes every client-subnet option and nothing else. *)
Theorem C24_delete q : opt_wf q -> removed subnet q (ECSModifierDelete q).
Proof. exact (ecs_delete_removed q). Qed.
Print Assumptions C24_delete.

(** 'add' leaves exactly one, the network of the configured length around the configured address
    or that of the client. *)
Theorem C24_add addr prefix4 prefix6 ci q : opt_wf q -> prefix4 <= 32 -> prefix6 <= 128 ->
  let ip := match addr with [] => ci_ip ci | _ => addr end in ip_ok ip ->
  exists o, subnet_of ip prefix4 prefix6 o /\ replaced subnet o q (ECSModifierAdd addr prefix4 prefix6 ci q).
Proof. exact (ecs_add addr prefix4 prefix6 ci q). Qed.
Print Assumptions C24_add.

(** 'add-if-missing' changes nothing if there is one, otherwise it is 'add'. *)
Theorem C24_add_if_missing addr prefix4 prefix6 ci q : opt_wf q ->
  (has_subnet q -> ECSModifierAddIfMissing addr prefix4 prefix6 ci q = q) /\
  (~ has_subnet q -> ECSModifierAddIfMissing addr prefix4 prefix6 ci q = ECSModifierAdd addr prefix4 prefix6 ci q).
Proof. exact (ecs_if_missing addr prefix4 prefix6 ci q). Qed.
Print Assumptions C24_add_if_missing.

(** 'privacy' cuts the addresses of families 1 and 2 to the configured length and changes nothing
    but these options. *)
Theorem C24_privacy prefix4 prefix6 q : opt_wf q -> prefix4 <= 32 -> prefix6 <= 128 ->
  (forall r opts, In r (m_extra q) -> rr_data r = DOPT opts -> Forall subnet_wf opts) ->
  (no_edns0 q -> ECSModifierPrivacy prefix4 prefix6 q = q) /\
  (~ no_edns0 q -> opt_edit (Forall2 (shortened prefix4 prefix6)) q (ECSModifierPrivacy prefix4 prefix6 q)).
Proof. exact (ecs_privacy prefix4 prefix6 q). Qed.
Print Assumptions C24_privacy.

Definition C24_q (o : list edns0) : msg := set_extra [new_opt 1232 true o] empty_msg.
Definition C24_ci : client := Client [192;0;2;77] "" "" "".
Example C24_add_ex : m_extra (ECSModifierAdd [] 24 56 C24_ci (C24_q [ECS 1 32 0 [10;1;2;3]; EDE 1 ""])) =
  [new_opt 1232 true [EDE 1 ""; ECS 1 24 0 [192;0;2;0]]].
Proof. vm_compute. reflexivity. Qed.
Example C24_add_hyps : ip_ok (ci_ip C24_ci) /\ opt_wf (C24_q [ECS 1 32 0 [10;1;2;3]; EDE 1 ""]) /\ subnet_wf (ECS 1 32 0 [10;1;2;3]).
Proof.
  split; [split; [repeat constructor|left; reflexivity]|]. split; [repeat constructor; eexists; reflexivity|].
  split; [|discriminate]. intros _. split; [split; [repeat constructor|left; reflexivity]|].
  exists [10;1;2;3]. split; [left; split; [intros [H _]; discriminate H|reflexivity]|reflexivity].
Qed.
Example C24_privacy_ex : m_extra (ECSModifierPrivacy 16 48 (C24_q [ECS 1 24 0 [10;1;2;0]; EDE 1 ""; ECS 1 0 0 [0;0;0;0]])) =
  [new_opt 1232 true [ECS 1 16 0 [10;1;0;0]; EDE 1 ""; ECS 1 16 0 [0;0;0;0]]].
Proof. vm_compute. reflexivity. Qed.
(** The last option above: a client that opts out with a prefix length of 0 is forwarded as
    0.0.0.0/16. *)
