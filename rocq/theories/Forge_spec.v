(** Zones that keep their keys secret, under an attacker who answers all queries of the validator. *)
From Verif Require Import Base Bytes Dns Name_model Name_spec Denial_model Denial_spec Keystore_model Dnssec_spec.
Open Scope N_scope.

Section FORGE.
Variable verify : rr -> rr -> list rr -> bool.
Variable toDS : rr -> N -> option string.
Variable hashName : string -> N -> N -> string -> string.
Variable anchors : list anchor.
(** The keys that only the zone can sign with, and the signatures it has made: the record and the signed set *)
Variable real : name -> rr -> Prop.
Variable made : name -> rr -> list rr -> Prop.

(** Signatures by keys of a zone are made by the zone. *)
Definition unforgeable : Prop := forall n k sig set, real n k -> verify sig k set = true -> made n sig set.
(** A zone signs under its name, and of all keys only its own. *)
Definition disciplined : Prop := forall n sig set, made n sig set ->
  (forall cov alg lab ottl e i tag signer data, rr_data sig = DRRSIG cov alg lab ottl e i tag signer data -> names signer n) /\
  (forall k f p a d, In k set -> rr_data k = DDNSKEY f p a d -> real n k).
(** The anchors for the root have digests of its keys. *)
Definition anchored : Prop := forall a k, In a anchors -> canonicalName (a_owner a) = "."%string -> digest_of toDS k (a_digesttype a) (a_digest a) -> real [] k.
(** All DS records that the zone has signed have digests of keys of children that keep theirs secret. *)
Definition delegates (n : name) : Prop := forall sig set d tag alg dt dg k, made n sig set -> In d set -> rr_data d = DDS tag alg dt dg -> digest_of toDS k dt dg -> exists l, real (l :: n) k.
(** This holds of all zones above the name. *)
Definition guarded (s : name) : Prop := forall l m, suffix (l :: m) s -> delegates m.
(** The zone has signed the set, and the signature was valid at some time up to T. *)
Definition published (z : name) (set : list rr) (T : N) : Prop := exists sig t cov alg lab ottl e i tag signer data,
  made z sig set /\ rr_data sig = DRRSIG cov alg lab ottl e i tag signer data /\ t <= T /\ i <= t /\ t <= e.

(** The records are what zones at or above their names have signed. *)
Definition genuine_answer (a : msg) (T : N) : Prop := forall r n, In r (m_answer a) -> ~ is_signature r -> names (rr_name r) n -> guarded n ->
  exists z set, suffix z n /\ rrset_of (m_answer a) r set /\ published z set T.
(** Records that zones at or above the name have signed are accepted as proof that there is no answer. *)
Definition genuine_denial (a : msg) (T : N) : Prop := exists q n rs, head (m_question a) = Some q /\ names (q_name q) n /\
  (guarded n -> forall r, In r rs -> In r (m_ns a) /\ exists z set, suffix z n /\ rrset_of (m_ns a) r set /\ published z set T) /\
  (nsecProvesDenial (flat_map as_nsec rs) (show n) (q_type q) (m_rcode a) = true \/
   nsec3ProvesDenial hashName (flat_map as_nsec3 rs) (show n) (q_type q) (m_rcode a) = true).
Definition genuine (a : msg) (T : N) : Prop := (m_answer a = [] -> genuine_denial a T) /\ (m_answer a <> [] -> genuine_answer a T).

(** What the zones contain: their NSEC and NSEC3 records tell the truth. *)
Variable content : name -> zone.
Variable chain_of : name -> chain3.
Definition truthful : Prop := forall m sig set r, made m sig set -> In r set -> zone_ok (content m) /\
  (forall x, In x (as_nsec r) -> authentic (content m) x) /\
  (forall x, In x (as_nsec3 r) -> chain_ok (content m) (chain_of m) /\ hash_ok hashName (chain_of m) /\ authentic3 hashName (content m) (chain_of m) x).
(** An unsigned delegation at or above the name: it has NS records and no DS records; or, if the zone leaves names out of its chain, is not in the chain. *)
Definition unsigned_below (s : name) : Prop := exists l m, suffix (l :: m) s /\ ~ has (content m) (l :: m) 43 /\
  (has (content m) (l :: m) 2 \/ (~ In (l :: m) (c_names (chain_of m)) /\ exists sig set r x, made m sig set /\ In r set /\ In x (as_nsec3 r) /\ N.testbit (h_flags x) 0 = true)).
(** Some name in the reply, or the name in question if there are no records, is below such a delegation, or below a zone that delegates to others. *)
Definition from_unsigned (a : msg) : Prop :=
  (m_answer a = [] -> exists q n, head (m_question a) = Some q /\ names (q_name q) n /\ (guarded n -> unsigned_below n)) /\
  (m_answer a <> [] -> exists r n, In r (m_answer a) /\ ~ is_signature r /\ names (rr_name r) n /\ (guarded n -> unsigned_below n)).
(** The names that the reply is about *)
Definition about (a : msg) (n : name) : Prop :=
  (m_answer a = [] /\ exists q, head (m_question a) = Some q /\ names (q_name q) n) \/ (exists r, In r (m_answer a) /\ ~ is_signature r /\ names (rr_name r) n).
End FORGE.
