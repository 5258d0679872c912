(** Which records of a zone are a complete proof that there is no answer (RFC 4035 3.1.3 and RFC 5155 7.2), independent of the code. *)
From Verif Require Import Base Bytes Dns Name_model Name_spec Denial_model Denial_spec Dnssec_spec Honest_spec.
Open Scope N_scope.

(** The name lies between the owner and the next name of the NSEC record; the last one of the zone leads back to the apex. *)
Definition spans (z : zone) (r : nsec) (q : name) : Prop := exists o nx, names (n_owner r) o /\ names (n_next r) nx /\ name_lt o q /\ (name_lt q nx \/ nx = z_apex z).
(** The zone has neither records of the type nor an alias at the name. *)
Definition lacking (z : zone) (n : name) (t : N) : Prop := ~ has z n t /\ ~ has z n 5.
(** The name does not exist: a record spans it, and one spans the wildcard at its closest encloser. If that is the root, then the wildcard
    is spanned by the record of the root. *)
Definition no_name (z : zone) (rs : list nsec) (q : name) : Prop := exists e, closest z q e /\
  (exists r, In r rs /\ spans z r q) /\
  (exists r, In r rs /\ (e = [] -> names (n_owner r) []) /\ (e <> [] -> spans z r (star e))).
(** The name exists without such records, or there is a wildcard without such records. *)
Definition no_data (z : zone) (rs : list nsec) (q : name) (t : N) : Prop :=
  (exists r, In r rs /\ names (n_owner r) q /\ lacking z q t) \/
  (exists e, closest z q e /\ e <> [] /\ (exists r, In r rs /\ spans z r q) /\ (exists r, In r rs /\ names (n_owner r) (star e)) /\ lacking z (star e) t).
Definition nsec_proof (z : zone) (rs : list nsec) (q : name) (t rcode : N) : Prop := (rcode = 3 /\ no_name z rs q) \/ (rcode = 0 /\ no_data z rs q t).

Section NSEC3.
Variable hashName : string -> N -> N -> string -> string.
Variable z : zone.
Variable c : chain3.
(** The NSEC3 record of the name, and one that spans the hash of the name *)
Definition owned3 (r : nsec3) (n : name) : Prop := exists hl apex',
  name_ok (hl :: apex') /\ lname apex' = z_apex z /\ h_owner r = show (hl :: apex') /\ map uc hl = bytes_of_string (hash hashName c n).
Definition spans3 (r : nsec3) (q : name) : Prop := exists n, owned3 r n /\ between (hash hashName c n) (hash hashName c q) (h_next r).
(** The longest ancestor that takes part in the chain; l is the next label of the name. *)
Definition provable (q : name) (l : list N) (e : name) : Prop :=
  In e (c_names c) /\ suffix (l :: e) q /\ forall e', In e' (c_names c) -> suffix e' q -> (length e' <= length e)%nat.
Definition no_name3 (rs : list nsec3) (q : name) : Prop := exists l e, provable q l e /\
  (exists r, In r rs /\ owned3 r e) /\
  ((exists r, In r rs /\ spans3 r (l :: e)) /\ (exists r, In r rs /\ spans3 r (star e)) \/ (exists r, In r rs /\ N.testbit (h_flags r) 0 = true /\ spans3 r (l :: e))).
Definition no_data3 (rs : list nsec3) (q : name) (t : N) : Prop :=
  (exists r, In r rs /\ owned3 r q /\ lacking z q t) \/
  (t = 43 /\ ~ In q (c_names c) /\ exists r, In r rs /\ N.testbit (h_flags r) 0 = true /\ spans3 r q) \/
  (exists l e, provable q l e /\ (exists r, In r rs /\ owned3 r e) /\ (exists r, In r rs /\ spans3 r (l :: e)) /\ (exists r, In r rs /\ owned3 r (star e)) /\ lacking z (star e) t).
Definition nsec3_proof (rs : list nsec3) (q : name) (t rcode : N) : Prop := (rcode = 3 /\ no_name3 rs q) \/ (rcode = 0 /\ no_data3 rs q t).
End NSEC3.

(** The NSEC or the NSEC3 records of the section are those of the zone, and such a proof for the name. *)
Definition proven (hashName : string -> N -> N -> string -> string) (z : zone) (c : chain3) (section : list rr) (n : name) (t rcode : N) : Prop :=
  let ds := filter denial section in
  zone_ok z /\ suffix (z_apex z) n /\
  ((Forall (authentic z) (flat_map as_nsec ds) /\ nsec_proof z (flat_map as_nsec ds) n t rcode) \/
   (z_apex z <> [] /\ chain_ok z c /\ hash_ok hashName c /\ Forall (authentic3 hashName z c) (flat_map as_nsec3 ds) /\ nsec3_proof hashName z c (flat_map as_nsec3 ds) n t rcode)).
(** An empty answer with such a proof, every record of which is signed by a secure zone at or above the name *)
Definition denial_of (verify : rr -> rr -> list rr -> bool) (keyTag : rr -> N) (hashName : string -> N -> N -> string -> string) (t0 T : N) (tr : tree) (secure : name -> Prop)
  (a : msg) (z : zone) (c : chain3) : Prop := exists q n, head (m_question a) = Some q /\ names (q_name q) n /\
  (m_rcode a = 0 \/ m_rcode a = 3) /\ m_answer a = [] /\ section_ok (m_ns a) /\
  (forall r, In r (m_ns a) -> denial r = true -> exists o zn sig signer,
     names (rr_name r) o /\ In sig (m_ns a) /\ names (rr_name sig) o /\ covers sig (rr_type r) signer /\ names signer zn /\ secure zn /\ suffix zn n /\
     lasting verify keyTag t0 T (t_zsk tr zn) (same_set (m_ns a) o (rr_type r)) sig) /\
  proven hashName z c (m_ns a) n (q_type q) (m_rcode a).
