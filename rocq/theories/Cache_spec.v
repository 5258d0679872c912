(** Specification for the cache properties: what an aged answer is, which queries ask the
    same question, how long an answer may be kept, which names are above a name. *)
From Verif Require Import Base Bytes Dns Net Blob_model Blob_spec Lru_model Cache_model.
Open Scope N_scope.

Definition key_eq : forall a b : lruKey, {a = b} + {a <> b}.
Proof. repeat decide equality. Defined.

(** The largest TTL *)
Definition max_ttl : N := 4294967295.

(** ** Same question (C05) *)
Definition subnet_opt (o : edns0) : option (N * bytes) :=
  match o with ECS _ mask _ addr => Some (mask, canon addr) | _ => None end.
(** The last client-subnet option: prefix length and address (IPv4-mapped = IPv4). *)
Fixpoint last_subnet (l : list edns0) : option (N * bytes) :=
  match l with
  | [] => None
  | o :: l' => match last_subnet l' with Some x => Some x | None => subnet_opt o end
  end.
Definition do_bit (q : msg) : bool := match is_edns0 q with Some o => opt_do o | None => false end.
Definition client_subnet (q : msg) : option (N * bytes) :=
  match is_edns0 q with Some o => last_subnet (opt_options o) | None => None end.

Definition same_question (q1 q2 : msg) : Prop :=
  match m_question q1, m_question q2 with
  | x1 :: _, x2 :: _ =>
      lower (q_name x1) = lower (q_name x2) /\ q_type x1 = q_type x2 /\ q_class x1 = q_class x2 /\
      m_cd q1 = m_cd q2 /\ do_bit q1 = do_bit q2 /\ client_subnet q1 = client_subnet q2
  | _, _ => False
  end.

(** ** Aging (C06) *)
(** whole seconds from t0 to t, none if the clock went backwards *)
(** A second, in nanoseconds *)
Definition a_second : Z := 1000000000.
Definition elapsed (t0 t : Z) : Z := Z.max 0 ((t - t0) / a_second).

Definition aged_rr (secs : Z) (r r' : rr) : Prop :=
  if is_opt r then r' = r
  else r' = set_ttl (rr_ttl r') r /\ Z.of_N (rr_ttl r') = (Z.of_N (rr_ttl r) - secs)%Z /\ 1 <= rr_ttl r'.

(** [r] is [a], stored at t0, served to [q] at t. *)
Definition aged_msg (q : msg) (t0 t : Z) (a r : msg) : Prop :=
  m_id r = m_id q /\ m_question r = m_question q /\
  m_response r = m_response a /\ m_opcode r = m_opcode a /\ m_aa r = m_aa a /\ m_tc r = m_tc a /\
  m_rd r = m_rd a /\ m_ra r = m_ra a /\ m_ad r = m_ad a /\ m_cd r = m_cd a /\ m_rcode r = m_rcode a /\
  Forall2 (aged_rr (elapsed t0 t)) (m_answer a) (m_answer r) /\
  Forall2 (aged_rr (elapsed t0 t)) (m_ns a) (m_ns r) /\
  Forall2 (aged_rr (elapsed t0 t)) (m_extra a) (m_extra r).

(** ** Lifetime (C07) *)
Definition records (a : msg) : list rr := filter (fun r => negb (is_opt r)) (m_answer a ++ m_ns a ++ m_extra a).
(** smallest TTL of the records *)
Fixpoint smallest (l : list rr) : option N :=
  match l with
  | [] => None
  | r :: l' => match smallest l' with Some n => Some (N.min (rr_ttl r) n) | None => Some (rr_ttl r) end
  end.

(** Seconds an answer is kept, [None] if it is not kept at all. *)
Definition base_lifetime (o : options) (a : msg) : option N :=
  match m_rcode a with
  | 0 | 1 | 3 | 4 | 5 =>
      match smallest (records a) with
      | Some n => if n =? max_ttl then Some (o_negttl o) else Some n
      | None => Some (o_negttl o)
      end
  | 2 => Some (N.min (o_negttl o) 300)
  | _ => None
  end.
Definition lifetime (o : options) (a : msg) : option N :=
  if m_tc a then None
  else match base_lifetime o a with
       | None => None
       | Some n => Some (match o_rcodemax o (m_rcode a) with Some l => N.min l n | None => n end)
       end.

(** ** Histories *)
(** Answers of upstream that reach the cache: the query, the time, the answer. A prefetched
    answer counts only if its smallest TTL is at least the one that triggered the prefetch. *)
Definition accepted (min : N) (a : msg) : bool :=
  match smallest (records a) with Some n => negb (n =? max_ttl) && (min <=? n) | None => false end.
Definition arrival (e : event) : option (msg * Z * msg) :=
  match e with
  | EStore q t (Ans a) => Some (q, t, a)
  | EPrefetch q min t (Ans a) => if accepted min a then Some (q, t, a) else None
  | _ => None
  end.

(** ** Addresses and their text *)
(** An address of a client-subnet option: none, IPv4 or IPv6. *)
Definition addr_ok (a : bytes) : Prop :=
  (length a = 0 \/ length a = 4 \/ length a = 16)%nat /\ Forall (fun x => x < 256) a.
(** net.IP.String: at most 65535 bytes, not empty, equal for equal addresses only (IPv4 and
    its IPv4-mapped form are the same address). *)
Definition ip_text_ok (ipString : bytes -> string) : Prop :=
  (forall a, addr_ok a -> N.of_nat (String.length (ipString a)) <= 65535 /\ ipString a <> ""%string) /\
  (forall a b, addr_ok a -> addr_ok b -> (ipString a = ipString b <-> canon a = canon b)).

(** ** Queries and times as they occur on the wire *)
Definition query_ok (q : msg) : Prop :=
  m_question q <> [] /\
  Forall (fun x => q_type x < 65536 /\ q_class x < 65536 /\ N.of_nat (String.length (q_name x)) <= 65535) (m_question q) /\
  Forall (fun r => Forall (fun o => match o with ECS _ mask _ addr => mask < 256 /\ addr_ok addr | _ => True end) (opt_options r)) (m_extra q).
(** 1970 < t < 2116, in nanoseconds *)
Definition now_ok (t : Z) : Prop := (0 < t < 2^62)%Z.
Definition opts_ok (o : options) : Prop :=
  o_negttl o <= max_ttl /\ (forall rc n, o_rcodemax o rc = Some n -> n <= max_ttl).
(** TTLs are 32-bit *)
Definition ttls_ok (a : msg) : Prop := Forall (fun r => rr_ttl r <= max_ttl) (m_answer a ++ m_ns a ++ m_extra a).

Definition up_ok (up : result) : Prop := match up with Ans a => ttls_ok a | _ => True end.
Definition event_ok (e : event) : Prop :=
  match e with
  | ELookup q t _ => query_ok q /\ now_ok t
  | EStore q t up => query_ok q /\ now_ok t /\ up_ok up
  | EPrefetch q _ t up => query_ok q /\ now_ok t /\ up_ok up
  | EGC _ => True
  | EEvict q => query_ok q
  end.

(** ** Where a cached answer comes from (C06) *)
(** Answers survive dns.Msg.Pack and Unpack. *)
Definition faithful (pack : msg -> option bytes) (unpack : bytes -> option msg) (l : list event) : Prop :=
  forall e q t a w, In e l -> arrival e = Some (q, t, a) -> pack a = Some w -> unpack w = Some a.

(** After the history [l], [r] is a fair answer to [q] at time [now]: upstream gave some [a] to
    the same question earlier, [r] is [a] aged, its lifetime is not over, and no answer that
    arrived later for this question could have been kept instead. *)
Definition hit_source (pack : msg -> option bytes) (o : options) (l : list event) (q : msg) (now : Z) (r : msg) : Prop :=
  exists l1 e l2 q0 t0 a n,
    l = l1 ++ e :: l2 /\ arrival e = Some (q0, t0, a) /\ same_question q0 q /\
    lifetime o a = Some n /\ (now <= t0 + Z.of_N n * a_second)%Z /\ aged_msg q t0 now a r /\
    (forall e' q' t' a', In e' l2 -> arrival e' = Some (q', t', a') -> lifetime o a' <> None -> pack a' <> None -> ~ same_question q' q).

(** What looking up [q] in the cache yields at this moment. *)
Definition peek (ipString : bytes -> string) (unpack : bytes -> option msg) (hash : lruKey -> N)
    (c : lru bytes) (q : msg) (now : Z) : option (msg * bool) :=
  match mem_lookup ipString unpack hash q now c with Some (_, r) => r | None => None end.

(** The query that flushes the cache *)
Definition flush_query (o : options) (q : msg) : Prop :=
  o_flush o <> ""%string /\ exists x l, m_question q = x :: l /\ q_name x = o_flush o.

(** ** Entries and records of the cache file (C04, C08) *)
(** [b] is the stored form of some entry under key [k]. *)
Definition stored (k : lruKey) (b : bytes) : Prop := exists m w, key_ok k /\ newCacheBlobFromWire k m w = Some b.
(** The fields of a decoded record fit the Go types. *)
Definition rec_ok (r : itemJSON) : Prop :=
  q_type (k_q (j_key r)) < 65536 /\ q_class (k_q (j_key r)) < 65536 /\ k_mask (j_key r) < 256.
(** An entry with a name and a message that unpacks *)
Definition good_entry (unpack : bytes -> option msg) (e : lruKey * bytes) : Prop :=
  exists m w, key_ok (fst e) /\ meta_ok m /\ q_name (k_q (fst e)) <> ""%string /\ w <> [] /\ unpack w <> None /\
    newCacheBlobFromWire (fst e) m w = Some (snd e).

(** ** Names (C09) *)
(** The labels of a presentation name: a dot ends a label unless a backslash precedes it. *)
Fixpoint labels_esc (cur : string) (s : string) : list string :=
  match s with
  | EmptyString => [cur]
  | String c s' =>
      if Ascii.eqb c "\"%char then
        match s' with
        | EmptyString => [(cur ++ "\")%string]
        | String d s'' => labels_esc (cur ++ String c (String d EmptyString))%string s''
        end
      else if Ascii.eqb c dot then cur :: labels_esc EmptyString s'
      else labels_esc (cur ++ String c EmptyString)%string s'
  end.
(** Labels of a name, most specific first; an absolute name ends in an empty label. *)
Definition dns_labels (s : string) : list string := labels_esc EmptyString s.
(** [p] is a proper ancestor of the absolute name [n], other than the root. *)
Definition proper_ancestor (p n : string) : Prop :=
  exists l, l <> [] /\ dns_labels n = l ++ dns_labels p /\ (2 <= length (dns_labels p))%nat.
(** [p] follows a dot in [n] and has one itself: what the code takes for an ancestor, escaped dots included *)
Definition dot_ancestor (p n : string) : Prop :=
  (exists pre, n = pre ++ "." ++ p)%string /\ contains "." p = true.
(** no backslash in the name *)
Definition no_escape (s : string) : Prop := contains "\" s = false.

(** Two messages that differ at most in the opcode, and events with such queries *)
Definition same_but_opcode (q q' : msg) : Prop :=
  m_id q = m_id q' /\ m_response q = m_response q' /\ m_aa q = m_aa q' /\ m_tc q = m_tc q' /\ m_rd q = m_rd q' /\ m_ra q = m_ra q' /\
  m_ad q = m_ad q' /\ m_cd q = m_cd q' /\ m_rcode q = m_rcode q' /\ m_question q = m_question q' /\ m_answer q = m_answer q' /\
  m_ns q = m_ns q' /\ m_extra q = m_extra q'.
Inductive same_event : event -> event -> Prop :=
| SE_lookup q q' now f : same_but_opcode q q' -> same_event (ELookup q now f) (ELookup q' now f)
| SE_store q q' now up : same_but_opcode q q' -> same_event (EStore q now up) (EStore q' now up)
| SE_prefetch q q' min now up : same_but_opcode q q' -> same_event (EPrefetch q min now up) (EPrefetch q' min now up)
| SE_gc now : same_event (EGC now) (EGC now)
| SE_evict q q' : same_but_opcode q q' -> same_event (EEvict q) (EEvict q').

(** The query for another name *)
Definition asking (q : msg) (n : string) : msg :=
  match m_question q with [] => q | x :: l => set_question (Q n (q_type x) (q_class x) :: l) q end.
