(** What a client can match with its query. *)
From Verif Require Import Base Bytes Dns Client_spec.

(** The answer has the ID of the query, and its first question *)
Definition reply_to (q a : msg) : Prop := m_id a = m_id q /\ echoes q a.
(** Answers to queries that ask something are replies *)
Definition fair (B : msg -> client -> msg -> Prop) : Prop := forall q ci a, m_question q <> [] -> B q ci a -> reply_to q a.
