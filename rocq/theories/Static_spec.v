(** Specification of fixed answers *)
From Verif Require Import Base Bytes Dns Blocklist_model.
Local Open Scope N_scope.

(** The name asked for *)
Definition asked (q : msg) : string := match m_question q with x :: _ => q_name x | [] => EmptyString end.
(** The reply to a query that carries given records, code and truncation, and possibly an extended error *)
Definition fixed_reply (answer ns extra : list rr) (rcode : N) (tc : bool) (ede : option (N * string)) (q a : msg) : Prop :=
  m_id a = m_id q /\ m_response a = true /\ m_opcode a = m_opcode q /\ m_aa a = true /\ m_ra a = true /\ m_ad a = false /\
  m_tc a = tc /\ m_rcode a = rcode /\ m_question a = firstn 1 (m_question q) /\
  (m_opcode q = 0 -> m_rd a = m_rd q /\ m_cd a = m_cd q) /\
  m_answer a = map (fun r => RR (asked q) (rr_type r) (rr_class r) (rr_ttl r) (rr_data r)) answer /\
  m_ns a = ns /\
  m_extra a = extra ++ match ede with Some (code, text) => [RR "." 41 4096 0 (DOPT [EDE code text])] | None => [] end.

(** What templates make of a query: those that fail, or whose text is no record, are left out. *)
Inductive rendered {input : Type} (newRR : string -> option (option rr)) (i : input) : list (input -> option string) -> list rr -> Prop :=
| Ren_nil : rendered newRR i [] []
| Ren_take t ts text r rs : t i = Some text -> newRR text = Some (Some r) -> rendered newRR i ts rs -> rendered newRR i (t :: ts) (r :: rs)
| Ren_fail t ts rs : t i = None -> rendered newRR i ts rs -> rendered newRR i (t :: ts) rs
| Ren_bad t ts text rs : t i = Some text -> newRR text = None -> rendered newRR i ts rs -> rendered newRR i (t :: ts) rs.
(** The extended error that a template makes for a query *)
Definition ede_of (t : option edetemplate) (q : msg) : option (N * string) :=
  match t with None => None | Some t => match ede_text t q None with Some s => Some (ede_code t, s) | None => None end end.
