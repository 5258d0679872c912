(** Specification of what is logged *)
From Verif Require Import Base Bytes Dns Logs_model.
Local Open Scope N_scope.

(** The records of an answer that are logged: those of the type asked for, or all *)
Definition shows (verbose : bool) (x : question) (l shown : list rr) : Prop :=
  (verbose = true /\ shown = l) \/ (verbose = false /\ shown = filter (fun r => N.eqb (rr_type r) (q_type x)) l).
(** What is logged about the outcome of a query *)
Inductive reported (opt : syslogopts) (q : msg) (x : question) : result -> list entry -> Prop :=
| Rep_off r : LogResponse opt = false -> reported opt q x r []
| Rep_drop : reported opt q x Drop []
| Rep_err e : reported opt q x (Err e) []
| Rep_rcode a : LogResponse opt = true -> m_rcode a <> 0 -> reported opt q x (Ans a) [LRcode (m_id q) (q_type x) (q_name x) (m_rcode a)]
| Rep_nodata a : LogResponse opt = true -> m_rcode a = 0 -> shows (Verbose opt) x (m_answer a) [] -> reported opt q x (Ans a) [LNodata (m_id q) (q_type x) (q_name x)]
| Rep_answer a shown l : LogResponse opt = true -> m_rcode a = 0 -> shows (Verbose opt) x (m_answer a) shown -> shown <> [] -> length l = length shown ->
    (forall i r, nth_error shown i = Some r -> nth_error l i = Some (LAnswer (m_id q) (S i) (length shown) (q_type x) (q_name x) r)) -> reported opt q x (Ans a) l.
