(** Specification of the query and response modifiers. *)
From Verif Require Import Base Bytes Dns Cidr_spec.
Open Scope N_scope.

(** [opt_edit P m m']: m' is m with the options of its EDNS0 record (the last OPT record of the
    additional section) changed as P allows; nothing else is different. *)
Definition opt_edit (P : list edns0 -> list edns0 -> Prop) (m m' : msg) : Prop :=
  exists pre r post opts opts',
    m_extra m = pre ++ r :: post /\ rr_type r = 41 /\ Forall (fun x => rr_type x <> 41) post /\
    rr_data r = DOPT opts /\ P opts opts' /\
    m' = set_extra (pre ++ RR (rr_name r) (rr_type r) (rr_class r) (rr_ttl r) (DOPT opts') :: post) m.

(** m has no EDNS0 record *)
Definition no_edns0 (m : msg) : Prop := Forall (fun x => rr_type x <> 41) (m_extra m).

(** m' is m with a new EDNS0 record at the end *)
Definition opt_new (size ttl : N) (opts : list edns0) (m m' : msg) : Prop :=
  no_edns0 m /\ m' = set_extra (m_extra m ++ [RR "." 41 size ttl (DOPT opts)]) m.

(** OPT records hold options (what the parser of the DNS library produces). *)
Definition opt_wf (m : msg) : Prop := Forall (fun r => rr_type r = 41 -> exists o, rr_data r = DOPT o) (m_extra m).

(** *** Padding *)
Definition is_padding (o : edns0) : Prop := exists d, o = PADDING d.
Definition other (o : edns0) : bool := match o with PADDING _ => false | _ => true end.
(** Only padding options differ, there is at least one, all but the last are empty. *)
Definition repadded (n : N) (l l' : list edns0) : Prop :=
  filter other l' = filter other l /\
  exists pre post, l' = pre ++ PADDING (repeat 0 (N.to_nat n)) :: post /\
    Forall (fun o => is_padding o -> o = PADDING []) (pre ++ post) /\ Forall (fun o => ~ is_padding o) post.
(** No option with the code of padding has another type. *)
Definition padding_typed (l : list edns0) : Prop := Forall (fun o => opt_code o = 12 -> is_padding o) l.

(** The size of a padded response that is [l0] long without padding, for a client accepting [udp]:
    the next multiple of 468 if the client accepts that *)
Definition target (udp l0 : N) : N :=
  let block := 468 * (l0 / 468 + 1) in if block <=? udp then block else N.max udp l0.

(** *** Client subnet *)
Definition subnet (o : edns0) : Prop := exists f m s a, o = ECS f m s a.
(** l' is l without the options satisfying P, in the same order. *)
Inductive without {A} (P : A -> Prop) : list A -> list A -> Prop :=
| W_nil : without P [] []
| W_drop x l l' : P x -> without P l l' -> without P (x :: l) l'
| W_keep x l l' : ~ P x -> without P l l' -> without P (x :: l) (x :: l').

(** The client-subnet option for an address: the network of that length containing it *)
Definition subnet_of (ip : bytes) (prefix4 prefix6 : N) (o : edns0) : Prop :=
  exists x, plain_addr ip x /\
    ((length x = 4%nat /\ exists f, first_addr x (N.to_nat prefix4) f /\ o = ECS 1 prefix4 0 f) \/
     (length x = 16%nat /\ exists f, first_addr x (N.to_nat prefix6) f /\ o = ECS 2 prefix6 0 f)).

(** What the privacy modifier may do to one option *)
Inductive shortened (prefix4 prefix6 : N) : edns0 -> edns0 -> Prop :=
| S_v4 mask scope a x f : plain_addr a x -> length x = 4%nat -> first_addr x (N.to_nat prefix4) f ->
    shortened prefix4 prefix6 (ECS 1 mask scope a) (ECS 1 prefix4 scope f)
| S_v6 mask scope a f : length a = 16%nat -> first_addr a (N.to_nat prefix6) f ->
    shortened prefix4 prefix6 (ECS 2 mask scope a) (ECS 2 prefix6 scope f)
| S_family family mask scope a : family <> 1 -> family <> 2 ->
    shortened prefix4 prefix6 (ECS family mask scope a) (ECS family mask scope a)
| S_other o : ~ subnet o -> shortened prefix4 prefix6 o o.
(** Options whose address has the size of their family (what the parser produces) *)
Definition subnet_wf (o : edns0) : Prop :=
  match o with
  | ECS f _ _ a => (f = 1 -> ip_ok a /\ exists x, plain_addr a x /\ length x = 4%nat) /\ (f = 2 -> ip_ok a /\ length a = 16%nat)
  | _ => True
  end.

(** The options satisfying P are removed from the EDNS0 record. *)
Definition removed (P : edns0 -> Prop) (m m' : msg) : Prop :=
  (no_edns0 m -> m' = m) /\ (~ no_edns0 m -> opt_edit (without P) m m').

(** m' has the options of m without those in P, and then o *)
Definition replaced (P : edns0 -> Prop) (o : edns0) (m m' : msg) : Prop :=
  (no_edns0 m -> opt_new 4096 0 [o] m m') /\
  (~ no_edns0 m -> opt_edit (fun l l' => exists k, without P l k /\ l' = k ++ [o]) m m').

(** The EDNS0 record has a client-subnet option. *)
Definition has_subnet (m : msg) : Prop :=
  exists pre r post opts, m_extra m = pre ++ r :: post /\ rr_type r = 41 /\ Forall (fun x => rr_type x <> 41) post /\ rr_data r = DOPT opts /\ Exists subnet opts.

(** *** TTLs *)
(** r' is r with TTL t, OPT records are unchanged *)
Definition ttl_is (t : N) (r r' : rr) : Prop :=
  ((exists o, rr_data r = DOPT o) /\ r' = r) \/
  ((forall o, rr_data r <> DOPT o) /\ r' = RR (rr_name r) (rr_type r) (rr_class r) t (rr_data r)).
(** m' is m with the TTLs changed by f *)
Definition ttl_mapped (f : N -> N) (m m' : msg) : Prop :=
  exists an ns ex, Forall2 (fun r r' => ttl_is (f (rr_ttl r)) r r') (m_answer m) an /\
    Forall2 (fun r r' => ttl_is (f (rr_ttl r)) r r') (m_ns m) ns /\
    Forall2 (fun r r' => ttl_is (f (rr_ttl r)) r r') (m_extra m) ex /\
    m' = set_answer an (set_ns ns (set_extra ex m)).
(** The records of a message that have a TTL, in order *)
Definition data_rr (r : rr) : bool := match rr_data r with DOPT _ => false | _ => true end.
Definition records (m : msg) : list rr := filter data_rr (m_answer m ++ m_ns m ++ m_extra m).
(** Limiting to [lo, hi], hi = 0 meaning no limit *)
Definition limited (lo hi t : N) : N :=
  if N.eqb hi 0 then N.max lo t else N.min hi (N.max lo t).

(** TTLs are 32-bit numbers. *)
Definition small_ttls (m : msg) : Prop := Forall (fun r => rr_ttl r <= 4294967295) (records m).
(** Selections among the TTLs of a message *)
Definition sum (l : list N) : N := fold_right N.add 0 l.
Definition is_lowest (l : list N) (v : N) : Prop := In v l /\ forall t, In t l -> v <= t.
Definition is_highest (l : list N) (v : N) : Prop := In v l /\ forall t, In t l -> t <= v.
Definition is_average (l : list N) (v : N) : Prop := v * N.of_nat (length l) <= sum l < (v + 1) * N.of_nat (length l).
Definition is_first (l : list N) (v : N) : Prop := exists l', l = v :: l'.
Definition is_last (l : list N) (v : N) : Prop := exists l', l = l' ++ [v].
Definition is_between (lo hi v : N) : Prop :=
  (hi = 0 -> lo <= v) /\ (hi <> 0 -> lo < hi -> lo <= v < hi) /\ (hi <> 0 -> hi <= lo -> v = lo).

(** *** Name replacement *)
Inductive applied : list (string -> string) -> string -> string -> Prop :=
| Ap_nil n : applied [] n n
| Ap_cons f fs n n' : applied fs (f n) n' -> applied (f :: fs) n n'.
(** m' is m with another name in its first question *)
Definition asks (name : string) (m m' : msg) : Prop :=
  (m_question m = [] /\ m' = m) \/
  exists x l, m_question m = x :: l /\ m' = set_question (Q name (q_type x) (q_class x) :: l) m.
(** a' is a with the names turned back *)
Definition renamed (old new : string) (a a' : msg) : Prop :=
  exists b an, asks old a b /\ a' = set_answer an b /\
    Forall2 (fun r r' => (rr_name r = new -> r' = RR old (rr_type r) (rr_class r) (rr_ttl r) (rr_data r)) /\ (rr_name r <> new -> r' = r)) (m_answer a) an.

(** *** Collapsing *)
(** an holds, in order, the records of l with that type and class, renamed. *)
Inductive collapsed (x : question) : list rr -> list rr -> Prop :=
| Co_nil : collapsed x [] []
| Co_drop r l an : ~ (rr_type r = q_type x /\ rr_class r = q_class x) -> collapsed x l an -> collapsed x (r :: l) an
| Co_keep r l an : rr_type r = q_type x -> rr_class r = q_class x -> collapsed x l an ->
    collapsed x (r :: l) (RR (q_name x) (rr_type r) (rr_class r) (rr_ttl r) (rr_data r) :: an).
(** A reply without records: ID and question of the query, the given code, recursion available *)
Definition bare_reply (q : msg) (rcode : N) (a : msg) : Prop :=
  m_id a = m_id q /\ m_response a = true /\ m_opcode a = m_opcode q /\ m_rcode a = rcode /\ m_ra a = true /\
  m_aa a = false /\ m_tc a = false /\ m_ad a = false /\
  m_question a = firstn 1 (m_question q) /\ m_answer a = [] /\ m_ns a = [] /\ m_extra a = [].
