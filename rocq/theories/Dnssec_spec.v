(** What it means that records are authenticated by the trust anchors, and that a zone is unsigned. Names are sequences of labels in lower
    case; the cryptography is left open. *)
From Verif Require Import Base Bytes Dns Name_model Name_spec Denial_model Denial_spec Keystore_model.
Open Scope N_scope.

(** No label contains a dot. *)
Definition no_dots (n : name) : Prop := Forall (fun l => ~ In 46 l) n.
(** s is the text of a name that is n but for case. *)
Definition names (s : string) (n : name) : Prop := exists n', name_ok n' /\ s = show n' /\ lname n' = n.

Section SPEC.
Variable verify : rr -> rr -> list rr -> bool.
Variable keyTag : rr -> N.
Variable toDS : rr -> N -> option string.
Variable hashName : string -> N -> N -> string -> string.
Variable anchors : list anchor.

(** At time t the signature by one of the keys is valid for the records. *)
Definition good_sig (keys rrset : list rr) (sig : rr) (t : N) : Prop := exists cov alg lab ottl expiration inception tag signer data k kf kp kd,
  rr_data sig = DRRSIG cov alg lab ottl expiration inception tag signer data /\
  In k keys /\ rr_data k = DDNSKEY kf kp alg kd /\ keyTag k = tag /\ verify sig k rrset = true /\
  inception <= t /\ t <= expiration.
(** The records were signed by one of the keys, as seen at some time up to T. *)
Definition signed (keys rrset : list rr) (T : N) : Prop := exists sig t, t <= T /\ good_sig keys rrset sig t.
(** A digest that identifies the key *)
Definition digest_of (k : rr) (dt : N) (digest : string) : Prop := exists c, toDS k dt = Some c /\ lower c = lower digest.
(** The keys of a zone, signed as the zone by its key k *)
Definition self_signed (zone : name) (k : rr) (zsk ksk : list rr) (T : N) : Prop :=
  In k ksk /\ exists sig t alg lab ottl expiration inception tag signer data, t <= T /\ good_sig [k] (zsk ++ ksk) sig t /\
  rr_data sig = DRRSIG 48 alg lab ottl expiration inception tag signer data /\ canonicalName signer = show zone.
Definition key_set (zsk ksk : list rr) : Prop :=
  Forall (fun k => exists p a d, rr_data k = DDNSKEY 256 p a d) zsk /\ Forall (fun k => exists p a d, rr_data k = DDNSKEY 257 p a d) ksk.

(** zsk, ksk are keys of the zone, by a chain of signatures from a trust anchor for the root: the keys are signed by one of them whose
    digest is in the anchors, or in DS records that are signed with keys of the parent zone. *)
Inductive trusted : name -> list rr -> list rr -> N -> Prop :=
| trusted_root zsk ksk T k a :
    In a anchors -> canonicalName (a_owner a) = "."%string -> digest_of k (a_digesttype a) (a_digest a) ->
    self_signed [] k zsk ksk T -> key_set zsk ksk -> trusted [] zsk ksk T
| trusted_child l n pzsk pksk zsk ksk T k ds d tag alg dt digest :
    trusted n pzsk pksk T ->
    signed pzsk ds T -> Forall (fun r => exists a b c e, rr_data r = DDS a b c e) ds ->
    In d ds -> rr_data d = DDS tag alg dt digest -> digest_of k dt digest ->
    self_signed (l :: n) k zsk ksk T -> key_set zsk ksk -> trusted (l :: n) zsk ksk T.

(** The records were signed with keys of a zone that is s or above s. *)
Definition authenticated (s : name) (rrset : list rr) (T : N) : Prop := exists zone zsk ksk,
  suffix zone s /\ trusted zone zsk ksk T /\ signed zsk rrset T.
(** The parent of some zone at or above s, but not the root, has signed an NSEC or NSEC3 record that denies it DS records. *)
Definition unsigned (s : name) (T : N) : Prop := exists l n zsk ksk rrset r,
  suffix (l :: n) s /\ trusted n zsk ksk T /\ signed zsk rrset T /\ In r rrset /\
  (existsb (fun x => nsecDeniesDS x (show (l :: n))) (as_nsec r) = true \/ existsb (fun x => nsec3DeniesDS hashName x (show (l :: n))) (as_nsec3 r) = true).

(** All names in the section, and the signers, have no dots in their labels. *)
Definition section_ok (rs : list rr) : Prop := forall r, In r rs ->
  (exists n, names (rr_name r) n /\ no_dots n) /\
  (forall cov alg lab ottl e i tag signer data, rr_data r = DRRSIG cov alg lab ottl e i tag signer data -> exists n, names signer n /\ no_dots n).
Definition message_ok (a : msg) : Prop := section_ok (m_answer a) /\ section_ok (m_ns a) /\
  (forall q, In q (m_question a) -> exists n, names (q_name q) n /\ no_dots n).

Definition is_signature (r : rr) : Prop := exists c a l o e i t s d, rr_data r = DRRSIG c a l o e i t s d.
(** The other records of the section with the same name and type *)
Definition rrset_of (section : list rr) (r : rr) (rrset : list rr) : Prop := exists n, names (rr_name r) n /\
  forall x, In x rrset <-> In x section /\ ~ is_signature x /\ names (rr_name x) n /\ rr_type x = rr_type r.
(** Every record of the answer but the signatures belongs to a set that is authenticated by a zone at or above its name. *)
Definition answer_authenticated (a : msg) (T : N) : Prop := forall r, In r (m_answer a) -> ~ is_signature r ->
  exists rrset n, names (rr_name r) n /\ rrset_of (m_answer a) r rrset /\ authenticated n rrset T.
(** NSEC or NSEC3 records of the authority section, from sets authenticated by a zone at or above the name in question, prove that there
    is no answer. *)
Definition denial_authenticated (a : msg) (T : N) : Prop := exists q n rs, head (m_question a) = Some q /\ names (q_name q) n /\
  (forall r, In r rs -> In r (m_ns a) /\ exists rrset, rrset_of (m_ns a) r rrset /\ authenticated n rrset T) /\
  (nsecProvesDenial (flat_map as_nsec rs) (show n) (q_type q) (m_rcode a) = true \/
   nsec3ProvesDenial hashName (flat_map as_nsec3 rs) (show n) (q_type q) (m_rcode a) = true).
Definition validated (a : msg) (T : N) : Prop := (m_answer a = [] -> denial_authenticated a T) /\ (m_answer a <> [] -> answer_authenticated a T).
(** The name in question, or the owner of a record of the answer, is in a zone proven unsigned. *)
Definition proven_unsigned (a : msg) (T : N) : Prop :=
  (m_answer a = [] -> exists q n, head (m_question a) = Some q /\ names (q_name q) n /\ unsigned n T) /\
  (m_answer a <> [] -> exists r n, In r (m_answer a) /\ ~ is_signature r /\ names (rr_name r) n /\ unsigned n T).
(** What may be returned to query q for the upstream answer a; strip adapts the message to the client. *)
Definition verdict (strip : msg -> msg) (logOnly : bool) (q a : msg) (T : N) (out : result) : Prop :=
  (m_rcode a <> 0 /\ m_rcode a <> 3 /\ out = Ans (strip a)) \/
  ((m_rcode a = 0 \/ m_rcode a = 3) /\
   ((validated a T /\ out = Ans (strip (set_ad true a))) \/
    (proven_unsigned a T /\ out = Ans (strip a)) \/
    (logOnly = false /\ out = Ans (servfail q)) \/
    (logOnly = true /\ out = Ans (strip a)))).
End SPEC.
(** DNSKEY records with the flags *)
Definition flagged (f : N) (r : rr) : bool := match rr_data r with DDNSKEY g _ _ _ => N.eqb g f | _ => false end.
