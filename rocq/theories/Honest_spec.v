(** Correctly signed data as an honest upstream resolver serves it, for the question whether the validator accepts it. *)
From Verif Require Import Base Bytes Dns Name_model Name_spec Denial_model Denial_spec Keystore_model Dnssec_spec.
Open Scope N_scope.

(** The keys of every zone (flags 256 and 257) and the DS records that its parent has for it *)
Record tree := Tree { t_zsk : name -> list rr; t_ksk : name -> list rr; t_ds : name -> list rr }.

(** Kinds of records *)
Definition signature (r : rr) : bool := match rr_data r with DRRSIG _ _ _ _ _ _ _ _ _ => true | _ => false end.
Definition digest (r : rr) : bool := match rr_data r with DDS _ _ _ _ => true | _ => false end.
(** A signature for records of the type, made by the signer *)
Definition covers (sig : rr) (type : N) (signer : string) : Prop := exists alg lab ottl e i tag data, rr_data sig = DRRSIG type alg lab ottl e i tag signer data.
(** The query for records of the type at the name *)
Definition asks_for (n : name) (type : N) (q : msg) : Prop := m_question q = [Q (show n) type 1].
(** The records of a section with the name and the type, in order *)
Definition same_set (section : list rr) (o : name) (type : N) : list rr :=
  filter (fun x => negb (signature x) && String.eqb (lower (rr_name x)) (show o) && (rr_type x =? type)) section.

Section HONEST.
Variable verify : rr -> rr -> list rr -> bool.
Variable keyTag : rr -> N.
Variable toDS : rr -> N -> option string.
Variable hashName : string -> N -> N -> string -> string.
Variable anchors : list anchor.
(** What the resolver answers *)
Variable W : msg -> result -> Prop.
(** The time from the start of the validator on that is looked at *)
Variables t0 T : N.
Variable tr : tree.
(** The zones with an unbroken chain of signatures *)
Variable secure : name -> Prop.

(** The signature is good all that time. *)
Definition lasting (keys rrset : list rr) (sig : rr) : Prop := forall t, t0 <= t -> t <= T -> good_sig verify keyTag keys rrset sig t.
(** A digest of the key is among the DS records for the zone, or in an anchor for the root. *)
Definition identified (n : name) (k : rr) : Prop :=
  match n with
  | [] => exists a, In a anchors /\ names (a_owner a) [] /\ digest_of toDS k (a_digesttype a) (a_digest a)
  | _ => exists d tag alg dt dg, In d (t_ds tr n) /\ rr_data d = DDS tag alg dt dg /\ digest_of toDS k dt dg
  end.
(** The resolver gives the keys of the zone, with a signature by a key that is identified. *)
Definition serves_keys (n : name) : Prop := forall u r, asks_for n 48 u -> W u r -> exists a k sig signer,
  r = Ans a /\ m_rcode a = 0 /\ filter (flagged 256) (m_answer a) = t_zsk tr n /\ filter (flagged 257) (m_answer a) = t_ksk tr n /\
  In sig (m_answer a) /\ covers sig 48 signer /\ names signer n /\ In k (t_ksk tr n) /\ identified n k /\ lasting [k] (t_zsk tr n ++ t_ksk tr n) sig.
(** The resolver gives the DS records for the zone, with a signature by a key of its parent. *)
Definition serves_ds (z parent : name) : Prop := forall u r, asks_for z 43 u -> W u r -> exists a sig signer,
  r = Ans a /\ m_rcode a = 0 /\ filter digest (m_answer a) = t_ds tr z /\ t_ds tr z <> [] /\
  In sig (m_answer a) /\ covers sig 43 signer /\ lasting (t_zsk tr parent) (t_ds tr z) sig.
(** The resolver answers for the secure zones: their keys, and DS records from the root down. The parent
    of a secure zone is the zone one label up. *)
Definition faithful : Prop :=
  secure [] /\ (forall l n, secure (l :: n) -> secure n /\ serves_ds (l :: n) n) /\
  (forall n, secure n -> name_ok n /\ lname n = n /\ no_dots n /\ serves_keys n) /\ (forall u, ~ W u Drop).

(** The record belongs to a set in the section with a signature by the keys of a secure zone at or above its name. *)
Definition proper (section : list rr) (r : rr) : Prop := exists o n sig signer,
  names (rr_name r) o /\ In sig section /\ names (rr_name sig) o /\ covers sig (rr_type r) signer /\ names signer n /\ secure n /\ suffix n o /\
  lasting (t_zsk tr n) (same_set section o (rr_type r)) sig.
(** All sets of the answer are signed. *)
Definition signed_answer (a : msg) : Prop :=
  (m_rcode a = 0 \/ m_rcode a = 3) /\ section_ok (m_answer a) /\ m_answer a <> [] /\ (forall r, In r (m_answer a) -> ~ is_signature r -> proper (m_answer a) r).

(** The record denies DS records for the name: the NSEC or the NSEC3 record of a delegation,
    or an NSEC3 record with the opt-out flag whose range the name is in. *)
Definition no_ds (d : rr) (n : name) : Prop :=
  (exists next ts, rr_type d = 47 /\ names (rr_name d) n /\ rr_data d = DNSEC next ts /\ In 2 ts /\ ~ In 43 ts /\ ~ In 6 ts) \/
  (exists alg flags iter salt next ts (x := Nsec3 (rr_name d) alg flags iter salt next ts), rr_type d = 50 /\ rr_data d = DNSEC3 alg flags iter salt next ts /\
     ((nsec3_match hashName x (show n) = true /\ In 2 ts /\ ~ In 43 ts /\ ~ In 6 ts) \/
      (nsec3_match hashName x (show n) = false /\ N.odd flags = true /\ nsec3_cover hashName x (show n) = true))).
(** A delegation to an unsigned zone: its secure parent one label up says so, with a signature. *)
Definition unsigned_cut (l : list N) (n : name) : Prop :=
  secure n /\ name_ok (l :: n) /\ lname (l :: n) = l :: n /\ no_dots (l :: n) /\
  forall u r, asks_for (l :: n) 43 u -> W u r -> exists a d o sig signer,
    r = Ans a /\ (m_rcode a = 0 -> filter digest (m_answer a) = []) /\ section_ok (m_ns a) /\
    In d (m_ns a) /\ no_ds d (l :: n) /\ names (rr_name d) o /\ In sig (m_ns a) /\ names (rr_name sig) o /\ covers sig (rr_type d) signer /\
    lasting (t_zsk tr n) (same_set (m_ns a) o (rr_type d)) sig.
(** The record has no signatures in the section and its name is in an unsigned zone. *)
Definition plain (section : list rr) (r : rr) : Prop := exists o l n,
  names (rr_name r) o /\ (forall sig signer, In sig section -> names (rr_name sig) o -> ~ covers sig (rr_type r) signer) /\ unsigned_cut l n /\ suffix (l :: n) o.
(** All sets of the answer are signed or from an unsigned zone, and some are of the latter kind. *)
Definition unsigned_answer (a : msg) : Prop :=
  (m_rcode a = 0 \/ m_rcode a = 3) /\ section_ok (m_answer a) /\
  (forall r, In r (m_answer a) -> ~ is_signature r -> proper (m_answer a) r \/ plain (m_answer a) r) /\
  (exists r, In r (m_answer a) /\ ~ is_signature r /\ plain (m_answer a) r).

(** The sets of NSEC and NSEC3 records of the authority section *)
Definition denial (r : rr) : bool := negb (signature r) && ((rr_type r =? 47) || (rr_type r =? 50)).
(** The answer is empty, all NSEC and NSEC3 records are signed by secure zones at or above the name, and they prove that there is no answer,
    in whatever order they are looked at. *)
Definition signed_denial (a : msg) : Prop := exists q n, head (m_question a) = Some q /\ names (q_name q) n /\
  (m_rcode a = 0 \/ m_rcode a = 3) /\ m_answer a = [] /\ section_ok (m_ns a) /\
  (forall r, In r (m_ns a) -> denial r = true -> exists o z sig signer,
     names (rr_name r) o /\ In sig (m_ns a) /\ names (rr_name sig) o /\ covers sig (rr_type r) signer /\ names signer z /\ secure z /\ suffix z n /\
     lasting (t_zsk tr z) (same_set (m_ns a) o (rr_type r)) sig) /\
  (forall rs, Permutation rs (filter denial (m_ns a)) ->
     nsecProvesDenial (flat_map as_nsec rs) (show n) (q_type q) (m_rcode a) = true \/
     nsec3ProvesDenial hashName (flat_map as_nsec3 rs) (show n) (q_type q) (m_rcode a) = true).
(** The answer is empty and the name in question is in an unsigned zone; nothing in the authority section looks like a denial. *)
Definition unsigned_denial (a : msg) : Prop := exists q o l n, head (m_question a) = Some q /\ names (q_name q) o /\
  (m_rcode a = 0 \/ m_rcode a = 3) /\ m_answer a = [] /\ Forall (fun r => denial r = false) (m_ns a) /\ unsigned_cut l n /\ suffix (l :: n) o.
End HONEST.
