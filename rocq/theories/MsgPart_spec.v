(** The parts of messages and what it means to change some of them only, independent of the code. *)
From Verif Require Import Base Bytes Dns Text_spec.
Local Open Scope N_scope.

Inductive part := PtId | PtResponse | PtOpcode | PtAA | PtTC | PtRD | PtRA | PtAD | PtCD | PtRcode | PtQuestion | PtAnswer | PtNs | PtExtra.
Inductive value := VNum (n : N) | VBit (b : bool) | VQs (l : list question) | VRecs (l : list rr).
Definition at_part (p : part) (m : msg) : value :=
  match p with
  | PtId => VNum (m_id m) | PtResponse => VBit (m_response m) | PtOpcode => VNum (m_opcode m) | PtAA => VBit (m_aa m) | PtTC => VBit (m_tc m)
  | PtRD => VBit (m_rd m) | PtRA => VBit (m_ra m) | PtAD => VBit (m_ad m) | PtCD => VBit (m_cd m) | PtRcode => VNum (m_rcode m)
  | PtQuestion => VQs (m_question m) | PtAnswer => VRecs (m_answer m) | PtNs => VRecs (m_ns m) | PtExtra => VRecs (m_extra m)
  end.
(** m' has the values given, and all other parts of m. *)
Definition changed (m m' : msg) (l : list (part * value)) : Prop :=
  (forall p v, In (p, v) l -> at_part p m' = v) /\ (forall p, ~ In p (map fst l) -> at_part p m' = at_part p m).
(** The last record of type OPT, with what comes before and after it *)
Definition last_opt (m : msg) (a : list rr) (o : rr) (b : list rr) : Prop :=
  m_extra m = a ++ o :: b /\ rr_type o = 41 /\ forall r, In r b -> rr_type r <> 41.
Definition no_opt (m : msg) : Prop := forall r, In r (m_extra m) -> rr_type r <> 41.
(** A new OPT record: for the root, with the size as class, the DO bit alone or nothing in the TTL, without options *)
Definition bare_opt (size : N) (do : bool) (o : rr) : Prop :=
  rr_name o = "."%string /\ rr_type o = 41 /\ rr_class o = size /\ (forall i, N.testbit (rr_ttl o) i = true <-> do = true /\ i = 15) /\ rr_data o = DOPT [].
(** A reply made up for the request: its identifier, opcode and first question, RD and CD for ordinary queries, the code, RA; nothing else *)
Definition made_up (req : msg) (code : N) (answer : list rr) (a : msg) : Prop :=
  m_id a = m_id req /\ m_response a = true /\ m_opcode a = m_opcode req /\ m_aa a = false /\ m_tc a = false /\ m_ra a = true /\ m_ad a = false /\
  (m_rd a = true <-> m_opcode req = 0 /\ m_rd req = true) /\ (m_cd a = true <-> m_opcode req = 0 /\ m_cd req = true) /\ m_rcode a = code /\
  m_question a = firstn 1 (m_question req) /\ m_answer a = answer /\ m_ns a = [] /\ m_extra a = [].
(** The first question is echoed, the name in any case. *)
Definition echoes (q a : msg) : Prop :=
  forall x l, m_question q = x :: l -> exists y l', m_question a = y :: l' /\ chars2 alike (q_name y) (q_name x) /\ q_class y = q_class x /\ q_type y = q_type x.
(** The PTR record for a name, which gets a final dot if it has none *)
Definition ptr_record (owner name : string) (r : rr) : Prop :=
  rr_name r = owner /\ rr_type r = 12 /\ rr_class r = 1 /\ rr_ttl r = 3600 /\
  exists t, rr_data r = DPTR t /\ ((t = name /\ exists u, name = (u ++ ".")%string) \/ (t = (name ++ ".")%string /\ forall u, name <> (u ++ ".")%string)).
