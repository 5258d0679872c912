(** C41: name replacement (replace.go). *)
From Verif Require Import Base Bytes Dns Modifiers_model Modifiers_spec Modifiers_proofs3.

(** The expressions are applied one after the other; if the name does not change the query is
    forwarded as it is, otherwise only its name changes, and in the response the original name is
    put back into the question and the answers owned by the new name. *)
Theorem C41_replace exps resolve q x l new : m_question q = x :: l -> applied exps (q_name x) new ->
  exists sent r, replace_resolve exps resolve q = Some (sent, r) /\
    (new = q_name x -> sent = q /\ r = resolve q) /\
    (new <> q_name x -> asks new q sent /\
      match resolve sent with
      | Ans a => exists a', r = Ans a' /\ renamed (q_name x) new a a'
      | r' => r = r'
      end).
Proof. exact (replace_spec exps resolve q x l new). Qed.
Print Assumptions C41_replace.

Definition C41_q : msg := set_question [Q "host." 1 1] empty_msg.
Definition C41_up (q : msg) : result :=
  Ans (set_answer [RR "host.lab." 5 1 60 (DCNAME "x.lab."); RR "x.lab." 1 1 60 (DA [1;2;3;4]%N); RR "HOST.lab." 1 1 60 (DA [])] q).
Definition C41_exps : list (string -> string) := [fun n => if String.eqb n "host." then "host.la."%string else n; fun n => if String.eqb n "host.la." then "host.lab."%string else n].
Definition C41_view (r : option (msg * result)) : option (string * string * list string) :=
  match r with Some (s, Ans a) => Some (qName s, qName a, map rr_name (m_answer a)) | _ => None end.
(** Note that a record owned by the new name in another letter case keeps it. *)
Example C41_ex : C41_view (replace_resolve C41_exps C41_up C41_q) = Some ("host.lab.", "host.", ["host."; "x.lab."; "HOST.lab."])%string.
Proof. vm_compute. reflexivity. Qed.
Example C41_hyps : m_question C41_q = [Q "host." 1 1] /\ applied C41_exps "host." "host.lab.".
Proof. split; [reflexivity|]. repeat constructor. Qed.
