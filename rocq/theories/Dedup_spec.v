(** Specification of request de-duplication, on what the outside sees. *)
From Verif Require Import Base Bytes Net Dns Cidr_spec Net_spec Dedup_model.
Open Scope N_scope.

(** ** Identical questions *)
(** The first client-subnet option of the OPT record *)
Definition subnet_option (q : msg) : option edns0 :=
  match is_edns0 q with
  | Some o => find (fun x => match x with ECS _ _ _ _ => true | _ => false end) (opt_options o)
  | None => None
  end.
Definition do_bit (q : msg) : bool := match is_edns0 q with Some o => opt_do o | None => false end.

(** The subnet: family, address and length. No option and options of unknown families have none; a
    missing address is zero. *)
Definition address (family : N) (a : bytes) (v : N) : Prop :=
  (a = [] /\ v = 0) \/
  (ip_ok a /\ family = 1 /\ is_v4 a /\ v = val128 a - 65535 * 2 ^ 32) \/
  (ip_ok a /\ family = 1 /\ ~ is_v4 a /\ v = 0) \/
  (ip_ok a /\ family = 2 /\ v = val128 a).
Inductive subnet (q : msg) : option (N * N * N) -> Prop :=
| subnet_none : subnet_option q = None -> subnet q None
| subnet_other f m s a : subnet_option q = Some (ECS f m s a) -> f <> 1 -> f <> 2 -> subnet q None
| subnet_some f m s a v : subnet_option q = Some (ECS f m s a) -> f = 1 \/ f = 2 -> address f a v -> subnet q (Some (f, v, m)).
(** Subnets are the same; those with address zero are also the same in either family, and with length
    zero the same as none. *)
Definition zero_subnet (s : option (N * N * N)) (m : N) : Prop :=
  match s with None => m = 0 | Some (_, v, m') => v = 0 /\ m' = m end.
Definition subnets_same (s s' : option (N * N * N)) : Prop := s = s' \/ exists m, zero_subnet s m /\ zero_subnet s' m.

Definition same_question (q q' : msg) : Prop :=
  exists x xs x' xs', m_question q = x :: xs /\ m_question q' = x' :: xs' /\
    lower (q_name x) = lower (q_name x') /\ q_type x = q_type x' /\ q_class x = q_class x' /\
    do_bit q = do_bit q' /\ m_cd q = m_cd q' /\
    exists s s', subnet q s /\ subnet q' s' /\ subnets_same s s'.

(** Addresses are nil, IPv4 or IPv6. *)
Definition subnet_ok (q : msg) : Prop :=
  match subnet_option q with Some (ECS _ _ _ a) => a = [] \/ ip_ok a | _ => True end.

(** ** Outcomes *)
(** The same outcome with the ID and question of q *)
Inductive personal (q : msg) : result -> result -> Prop :=
| personal_ans a b : m_id b = m_id q -> m_question b = m_question q ->
    m_response b = m_response a -> m_opcode b = m_opcode a -> m_aa b = m_aa a -> m_tc b = m_tc a -> m_rd b = m_rd a ->
    m_ra b = m_ra a -> m_ad b = m_ad a -> m_cd b = m_cd a -> m_rcode b = m_rcode a ->
    m_answer b = m_answer a -> m_ns b = m_ns a -> m_extra b = m_extra a -> personal q (Ans a) (Ans b)
| personal_drop : personal q Drop Drop
| personal_err e : personal q (Err e) (Err e).

(** ** Executions *)
Notation trace := (list (devent * dout)).
(** Thread t began with query q; asked upstream; got upstream's reply; returned *)
Definition began (tr : trace) (t : nat) (q : msg) : Prop := exists o, In (DEnter t q, o) tr.
Definition asked (tr : trace) (t : nat) (q : msg) : Prop := In (DEnter t q, OAsk q) tr.
Definition replied (tr : trace) (t : nat) (r : result) : Prop := exists o, In (DReply t r, o) tr.
Definition returned (tr : trace) (t : nat) (r : result) : Prop := exists e, (e = DRemove t \/ e = DWake t) /\ In (e, OReturn r) tr.
(** An upstream query of t for q is in progress *)
Definition upstream (tr : trace) (t : nat) (q : msg) : Prop := asked tr t q /\ forall r, ~ replied tr t r.
(** The query is in progress: asked and the call has not returned *)
Definition in_progress (tr : trace) (t : nat) (q : msg) : Prop := asked tr t q /\ forall r, ~ returned tr t r.
