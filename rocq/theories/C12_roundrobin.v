(** C12: round-robin is exactly fair. *)
From Verif Require Import Base Dns Groups_model Groups_spec Groups_proofs.
From Coq Require Import List.
Local Open Scope nat_scope.

(** Whatever calls run concurrently: the k-th query that is forwarded goes to resolver k mod n. *)
Theorem C12_consecutive : forall n l s, 0 < n -> exec (rr_step n) g_init l = Some s ->
  sents l = map (fun k => k mod n) (seq 0 (length (sents l))).
Proof. exact (fun n l s Hn H => proj1 (rr_sents n l s Hn H)). Qed.
Print Assumptions C12_consecutive.

(** Of m queries every resolver got m/n or m/n+1. *)
Theorem C12_fair : forall n l s i, i < n -> exec (rr_step n) g_init l = Some s ->
  length (sents l) / n <= count_occ Nat.eq_dec (sents l) i <= length (sents l) / n + 1.
Proof. exact rr_fair. Qed.
Print Assumptions C12_fair.

(** Any n queries in a row reach every resolver once. *)
Theorem C12_window : forall n l s l1 w l2 i, i < n -> exec (rr_step n) g_init l = Some s ->
  sents l = l1 ++ w ++ l2 -> length w = n -> count_occ Nat.eq_dec w i = 1.
Proof. exact rr_window. Qed.
Print Assumptions C12_window.

(** A query goes to one resolver, and what that resolver returns, failure or not, is returned. *)
Theorem C12_no_retry : forall n l s t r, 0 < n -> exec (rr_step n) g_init l = Some s -> g_pc s t = Returned r ->
  exists idx, idx < n /\ mine t l = [Sent t idx; Reply t r].
Proof.
  exact (fun n l s t r Hn H Hr => proj1 (eq_ind (g_pc s t) (fun p => match p with
    | Idle => mine t l = [] | Waiting _ idx => idx < n /\ mine t l = [Sent t idx]
    | Returned r => exists idx, idx < n /\ mine t l = [Sent t idx; Reply t r] | _ => False end /\ g_active s < n)
    (rr_call n l s t Hn H) _ Hr)).
Qed.
Print Assumptions C12_no_retry.

(** Four calls on three resolvers, the second and third overlapping. *)
Definition C12_run : list gevent :=
  [Sent 0 0; Reply 0 (Err "refused"); Sent 1 1; Sent 2 2; Reply 2 Drop; Sent 3 0; Reply 1 Drop].
Example C12_run_ok : option_map (fun s => (g_active s, g_pc s 0)) (exec (rr_step 3) g_init C12_run) = Some (1, Returned (Err "refused")).
Proof. vm_compute. reflexivity. Qed.
Example C12_run_sents : sents C12_run = [0; 1; 2; 0].
Proof. reflexivity. Qed.
(** Nothing else is allowed: *)
Example C12_run_wrong : exec (rr_step 3) g_init [Sent 0 0; Sent 1 0] = None.
Proof. reflexivity. Qed.
