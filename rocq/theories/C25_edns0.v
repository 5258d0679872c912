(** C25: the EDNS0 modifier (edns0-modifier.go). *)
From Verif Require Import Base Bytes Dns Modifiers_model Modifiers_spec Modifiers_proofs Modifiers_proofs2.
Local Open Scope N_scope.

(** 'delete' removes exactly the options with the code. *)
Theorem C25_delete code q : opt_wf q -> removed (fun o => opt_code o = code) q (EDNS0ModifierDelete code q).
Proof. exact (delete_removed code q). Qed.
Print Assumptions C25_delete.

(** 'add' removes them and appends the one configured, with a new EDNS0 record if there was none. *)
Theorem C25_add code data q : opt_wf q -> replaced (fun o => opt_code o = code) (LOCAL code data) q (EDNS0ModifierAdd code data q).
Proof. exact (add_replaced code data q). Qed.
Print Assumptions C25_add.

(** The query goes upstream modified and the response comes back as it is. *)
Theorem C25_resolve modifier resolve q :
  snd (modify_query (Some modifier) resolve q) = resolve (modifier q) /\ snd (modify_query None resolve q) = resolve q.
Proof. exact (conj eq_refl eq_refl). Qed.
Print Assumptions C25_resolve.

Definition C25_q : msg := set_extra [new_opt 1232 true [LOCAL 65001 [1]; EDE 15 "x"; LOCAL 65001 [2]; LOCAL 65002 [3]]; RR "a." 1 1 5 (DA [1;2;3;4])] empty_msg.
Example C25_wf : opt_wf C25_q /\ ~ no_edns0 C25_q.
Proof.
  split; [repeat constructor; [intros _; eexists; reflexivity|intros H; discriminate H]|]. intros H. inversion H as [|? ? H1]. apply H1. reflexivity.
Qed.
Example C25_add_ex : m_extra (EDNS0ModifierAdd 65001 [9] C25_q) =
  [new_opt 1232 true [EDE 15 "x"; LOCAL 65002 [3]; LOCAL 65001 [9]]; RR "a." 1 1 5 (DA [1;2;3;4])].
Proof. vm_compute. reflexivity. Qed.
Example C25_new_ex : m_extra (EDNS0ModifierAdd 65001 [9] empty_msg) = [new_opt 4096 false [LOCAL 65001 [9]]].
Proof. vm_compute. reflexivity. Qed.
