(** What a lookup through the bootstrap resolver may end with. *)
From Verif Require Import Base Bytes Dns NetRes_model Client_spec.
Local Open Scope N_scope.

(** The program itself asks *)
Definition local : client := Client [127;0;0;1] "" "" "".
Section SPEC.
Variable resolve : nat -> msg -> client -> result.
Variable unpack : bytes -> option msg.
Variable pack : msg -> option bytes.
Variable parse : bytes -> option ghead.
(** The n-th call, made for the request [p], is answered with [a] *)
Definition gives (n : nat) (p : bytes) (a : msg) : Prop := exists m, unpack p = Some m /\ resolve n m local = Ans a.
Definition fits (a : msg) (b : bytes) : Prop := pack a = Some b /\ N.of_nat (length b) <= 1232.
(** These octets are a response with this ID, to this question *)
Definition response_to (id : N) (q : question) (b : bytes) (h : ghead) : Prop :=
  parse b = Some h /\ g_response h = true /\ g_id h = id /\
  exists x l, g_questions h = x :: l /\ q_type x = q_type q /\ q_class x = q_class q /\ lower (q_name x) = lower (q_name q).
(** What becomes of one call *)
Inductive round (n : nat) (id : N) (q : question) (p : bytes) : got -> bool -> Prop :=
| round_none : (forall a, ~ gives n p a) -> round n id q p Failed false
| round_big : forall a, gives n p a -> (forall b, ~ fits a b) -> round n id q p Failed false
| round_other : forall a b, gives n p a -> fits a b -> (forall h, ~ response_to id q b h) -> round n id q p Hang false
| round_many : forall a b h, gives n p a -> fits a b -> response_to id q b h -> length (g_questions h) <> 1%nat -> round n id q p Failed false
| round_ok : forall a b h, gives n p a -> fits a b -> response_to id q b h -> length (g_questions h) = 1%nat -> round n id q p (Got b) (g_tc h).
(** The answers of the resolver are responses that Go accepts *)
Definition matching (id : N) (q : question) (p : bytes) : Prop := forall n a b, gives n p a -> fits a b -> exists h, response_to id q b h.
(** Go's parser and the library that packs see the same message *)
Definition agree : Prop := forall a b, pack a = Some b -> parse b = Some (GHead (m_id a) (m_response a) (m_tc a) (m_question a)).
(** The request asks this *)
Definition asks (id : N) (q : question) (p : bytes) : Prop := exists m, unpack p = Some m /\ m_id m = id /\ m_question m = [q].
End SPEC.
