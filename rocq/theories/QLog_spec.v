(** Loggers as values: what is known of a query, and the arguments added so far. *)
From Verif Require Import Base Bytes Dns QLog_model.
Local Open Scope Z_scope.

(** How the i-th logger came to be, from the events alone: the slog.Logger it was made with (None: without one), element, query, client, and all arguments of the
    calls of With that led to it, in order. [g] is Log, [made] the loggers before. *)
Record abs := Abs { a_dst : option nat; a_id : string; a_q : option nat; a_ci : linfo; a_args : list arg }.
Fixpoint history (g : nat) (made : list abs) (l : list levent) : nat * list abs :=
  match l with
  | [] => (g, made)
  | ENew id q ci :: l' => history g (made ++ [Abs (Some g) id q ci []]) l'
  | EBare id q ci :: l' => history g (made ++ [Abs None id q ci []]) l'
  | EWith i args _ :: l' =>
      history g (match nth_error made i with Some a => made ++ [Abs (a_dst a) (a_id a) (a_q a) (a_ci a) (a_args a ++ args)] | None => made end) l'
  | EGlobal d :: l' => history d made l'
  | _ :: l' => history g made l'
  end.
(** What is known of a query that a pointer leads to now *)
Inductive named (typeName : N -> string) (messages : nat -> msg) : option nat -> list attr -> Prop :=
| named_none : named typeName messages None []
| named_some p x l : m_question (messages p) = x :: l -> named typeName messages (Some p) [("qtype"%string, VStr (typeName (q_type x))); ("qname"%string, VStr (q_name x))]
| named_empty p : m_question (messages p) = [] -> named typeName messages (Some p) [("qtype"%string, VStr ""); ("qname"%string, VStr "")].
(** An attribute that is left out if empty *)
Definition unless_empty (k s : string) (l : list attr) : Prop := (s = ""%string /\ l = []) \/ (s <> ""%string /\ l = [(k, VStr s)]).
(** The record of one call *)
Inductive recorded (typeName : N -> string) (messages : nat -> msg) (a : abs) (args : list arg) : list attr -> Prop :=
| rec n p d h : named typeName messages (a_q a) n -> unless_empty "protocol" (li_protocol (a_ci a)) p -> unless_empty "addr" (li_addr (a_ci a)) d -> unless_empty "path" (li_path (a_ci a)) h ->
    recorded typeName messages a args ([("id"%string, VStr (a_id a)); ("client"%string, VIP (li_ip (a_ci a)))] ++ n ++ p ++ d ++ h ++ attrs_of (a_args a) ++ attrs_of args).
(** Arguments as the code gives them: a key with its value, attributes *)
Inductive paired : list arg -> list attr -> Prop :=
| paired_nil : paired [] []
| paired_key k x l r : paired l r -> paired (AStr k :: x :: l) ((k, as_value x) :: r)
| paired_attr k v l r : paired l r -> paired (AAttr k v :: l) ((k, v) :: r).
