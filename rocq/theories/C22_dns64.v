(** C22: DNS64. *)
From Verif Require Import Base Bytes Net Dns Cidr_model Cidr_spec Net_spec Dns64_model Dns64_spec Dns64_proofs.
Local Open Scope nat_scope.

(** Each configured prefix embeds each IPv4 address as RFC 6052 says. *)
Theorem C22_embedding : forall a pl v, bytes_ok a -> length a = 16 -> In pl [32; 40; 48; 56; 64; 96] -> length v = 4 ->
  embedded a pl v (synthesizeIPv6 (D64Prefix (land_bytes a (Net.mask_bytes pl 16)) pl) v).
Proof. exact synth_embedded. Qed.
Print Assumptions C22_embedding.

(** The specification leaves one address only, and the IPv4 address can be read back; so distinct IPv4
    addresses give distinct IPv6 addresses. *)
Theorem C22_unique : forall a pl v r r', In pl [32; 40; 48; 56; 64; 96] -> embedded a pl v r -> embedded a pl v r' -> r = r'.
Proof. exact embedded_unique. Qed.
Print Assumptions C22_unique.
Theorem C22_recover : forall a pl v r, In pl [32; 40; 48; 56; 64; 96] -> length v = 4 -> embedded a pl v r -> extracted pl r = v.
Proof. exact extract_embedded. Qed.
Print Assumptions C22_recover.

(** A configuration is refused exactly when one text is not an IPv6 network of an allowed length. *)
Theorem C22_prefixes : forall parseAddr l, parse_ok parseAddr ->
  (newDNS64 parseAddr l = None <-> exists s, In s (effective l) /\ forall n, ~ prefix_text parseAddr s n).
Proof. exact prefixes_accepted. Qed.
Print Assumptions C22_prefixes.

(** For an AAAA query without DO for which upstream has no AAAA record but A records: the answer has the
    aliases and, for each A record and prefix, one AAAA record. *)
Theorem C22_synthesizes : forall parseAddr texts ps up q x q' a b, parse_ok parseAddr -> newDNS64 parseAddr texts = Some ps ->
  wants q x -> asks_a q q' -> needs up q q' a b ->
  exists r nets cnames recs made,
    dns64_resolve ps up q = Some ([q; q'], Ans r) /\
    Forall2 (prefix_text parseAddr) (effective texts) nets /\
    picked alias (m_answer b) cnames /\ picked has_v4 (m_answer b) recs /\
    m_answer r = cnames ++ made /\ Forall2 (fun rn y => made_from x (fst rn) (snd rn) y) (list_prod recs nets) made /\
    m_id r = m_id q /\ m_response r = true /\ m_rcode r = 0%N /\ m_question r = [x] /\ m_ra r = m_ra a /\ m_ns r = m_ns b /\ m_extra r = m_extra b /\
    m_aa r = false /\ m_ad r = false /\ m_tc r = false.
Proof. exact synthesizes. Qed.
Print Assumptions C22_synthesizes.

(** In all other cases upstream's answer is returned as it is, and A records are asked for only after an
    answer without AAAA records. *)
Theorem C22_unchanged : forall parseAddr texts ps up q, parse_ok parseAddr -> newDNS64 parseAddr texts = Some ps -> m_question q <> [] ->
  (~ exists x q' a b, wants q x /\ asks_a q q' /\ needs up q q' a b) ->
  exists qs, dns64_resolve ps up q = Some (qs, up q) /\
    (qs = [q] \/ exists x q' a, wants q x /\ asks_a q q' /\ qs = [q; q'] /\ up q = Ans a /\ m_rcode a = 0%N /\ forall r, In r (m_answer a) -> rr_type r <> 28%N).
Proof. exact unchanged. Qed.
Print Assumptions C22_unchanged.

(** The made records are not owned by the name of the A record when there is an alias. *)
Theorem C22_owner_refuted : exists ps up q r x y, newDNS64 d64_parse [] = Some ps /\ dns64_resolve ps up q = Some ([q; a_query q], Ans r) /\
  m_answer r = [x; y] /\ rr_data x = DCNAME "b." /\ rr_name y = "w.a."%string /\ rr_type y = 28%N /\
  (forall b z, up (a_query q) = Ans b -> In z (m_answer b) -> rr_type z = 1%N -> rr_name z = "b."%string).
Proof. exact owner_refuted. Qed.
Print Assumptions C22_owner_refuted.

Example C22_parse : parse_ok d64_parse.
Proof. exact d64_parse_ok. Qed.
Example C22_hypotheses : wants d64_q (Q "w.a." 28 1) /\ asks_a d64_q (a_query d64_q) /\ needs d64_up d64_q (a_query d64_q) d64_empty d64_v4.
Proof. exact d64_hyps. Qed.
Example C22_answer : exists ps, newDNS64 d64_parse ["2001:db8:122:344::/56"; "64:ff9b::/96"]%string = Some ps /\
  option_map (fun x => match snd x with Ans r => m_answer r | _ => [] end) (dns64_resolve ps d64_up d64_q) =
  Some [RR "w.a." 5 1 300 (DCNAME "b."); RR "w.a." 28 1 60 (DAAAA [32;1;13;184;1;34;3;192;0;0;2;33;0;0;0;0]%N);
        RR "w.a." 28 1 60 (DAAAA [0;100;255;155;0;0;0;0;0;0;0;0;192;0;2;33]%N)].
Proof. exact d64_demo. Qed.
