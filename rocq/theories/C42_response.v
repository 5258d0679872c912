(** C42: response-minimize.go, response-collapse.go, truncate-retry.go. *)
From Verif Require Import Base Bytes Dns Modifiers_model Modifiers_spec Modifiers_proofs3.
Local Open Scope N_scope.

(** Minimizing removes the authority and additional records and nothing else. *)
Theorem C42_minimize r a' : minimize_resolve r = Ans a' <->
  exists a, r = Ans a /\ m_ns a' = [] /\ m_extra a' = [] /\ m_answer a' = m_answer a /\ m_question a' = m_question a /\
    m_id a' = m_id a /\ m_response a' = m_response a /\ m_opcode a' = m_opcode a /\ m_rcode a' = m_rcode a /\
    m_aa a' = m_aa a /\ m_tc a' = m_tc a /\ m_rd a' = m_rd a /\ m_ra a' = m_ra a /\ m_ad a' = m_ad a /\ m_cd a' = m_cd a.
Proof. exact (minimize_spec r a'). Qed.
Print Assumptions C42_minimize.

(** Failures pass. *)
Theorem C42_minimize_other : minimize_resolve Drop = Drop /\ forall e, minimize_resolve (Err e) = Err e.
Proof. exact (conj eq_refl (fun e => eq_refl)). Qed.
Print Assumptions C42_minimize_other.

(** Collapsing keeps exactly the answer records of the type and class asked for, owned by the name
    asked for; if there are none the reply is the configured code. Failures pass. *)
Theorem C42_collapse nullRCode resolve q x l : m_question q = x :: l ->
  exists r, collapse_resolve nullRCode resolve q = Some r /\
    match resolve q with
    | Ans a => (m_rcode a <> 0 -> r = Ans a) /\
               (m_rcode a = 0 -> exists an, collapsed x (m_answer a) an /\
                  (an <> [] -> r = Ans (set_answer an a)) /\
                  (an = [] -> exists b, r = Ans b /\ bare_reply q nullRCode b))
    | r' => r = r'
    end.
Proof. exact (collapse_spec nullRCode resolve q x l). Qed.
Print Assumptions C42_collapse.

(** A truncated response is retried once, with the same query; others never. *)
Theorem C42_truncate resolve retry q :
  match resolve q with
  | Ans a => if m_tc a then truncate_resolve resolve retry q = ([q], [q], retry q) else truncate_resolve resolve retry q = ([q], [], Ans a)
  | r => truncate_resolve resolve retry q = ([q], [], r)
  end.
Proof. exact (truncate_spec resolve retry q). Qed.
Print Assumptions C42_truncate.

Definition C42_q : msg := set_question [Q "a." 1 1] empty_msg.
Definition C42_a : msg := set_answer [RR "a." 5 1 60 (DCNAME "b."); RR "b." 1 1 60 (DA [1;2;3;4])] C42_q.
Example C42_collapse_ex : option_map (fun r => match r with Ans a => m_answer a | _ => [] end) (collapse_resolve 3 (fun _ => Ans C42_a) C42_q) =
  Some [RR "a." 1 1 60 (DA [1;2;3;4])].
Proof. vm_compute. reflexivity. Qed.
Example C42_collapse_none : option_map (fun r => match r with Ans a => (m_rcode a, length (m_answer a)) | _ => (0, 9%nat) end)
    (collapse_resolve 3 (fun _ => Ans C42_a) (set_question [Q "a." 28 1] C42_q)) = Some (3, 0%nat).
Proof. vm_compute. reflexivity. Qed.
Example C42_truncate_ex : snd (fst (truncate_resolve (fun _ => Ans (set_tc true C42_a)) (fun _ => Ans C42_a) C42_q)) = [C42_q].
Proof. vm_compute. reflexivity. Qed.
