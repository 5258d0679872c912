(** Specification of the blocklists. *)
From Verif Require Import Base Bytes Dns Cidr_spec Net_spec.
Local Open Scope N_scope.

(** A reply to the query with this code and these records, nothing else set *)
Definition reply (q : msg) (rcode : N) (answer extra : list rr) (a : msg) : Prop :=
  m_id a = m_id q /\ m_response a = true /\ m_opcode a = m_opcode q /\ m_rcode a = rcode /\ m_ra a = true /\
  m_aa a = false /\ m_tc a = false /\ m_ad a = false /\
  m_question a = firstn 1 (m_question q) /\ m_answer a = answer /\ m_ns a = [] /\ m_extra a = extra.

(** The additional section of a blocking reply: empty, or the configured extended error with the
    text for the query and the rule it matched *)
Definition error_records (t : option (N * (msg -> option (string * string) -> option string))) (q : msg) (rule : option (string * string)) : list rr :=
  match t with
  | Some (code, text) => match text q rule with
                         | Some s => [RR "." 41 4096 0 (DOPT [EDE code s])]
                         | None => []
                         end
  | None => []
  end.

(** Records giving an address for the name asked for *)
Definition a_record (x : question) (ip : bytes) : rr := RR (q_name x) 1 (q_class x) 3600 (DA ip).
Definition aaaa_record (x : question) (ip : bytes) : rr := RR (q_name x) 28 (q_class x) 3600 (DAAAA ip).
Definition ptr_record (x : question) (n : string) : rr := RR (q_name x) 12 1 3600 (DPTR n).
(** The records for a list of addresses: of the type asked for *)
Inductive spoofed (x : question) : list bytes -> list rr -> Prop :=
| Sp_nil : spoofed x [] []
| Sp_a ip l r : q_type x = 1 -> is_v4 ip -> spoofed x l r -> spoofed x (ip :: l) (a_record x ip :: r)
| Sp_aaaa ip l r : q_type x = 28 -> length ip = 16%nat -> spoofed x l r -> spoofed x (ip :: l) (aaaa_record x ip :: r)
| Sp_other ip l r : ~ (q_type x = 1 /\ is_v4 ip) -> ~ (q_type x = 28 /\ length ip = 16%nat) -> spoofed x l r -> spoofed x (ip :: l) r.

(** The address of the first client-subnet option of the EDNS0 record *)
Definition subnet_option (o : edns0) (a : bytes) : Prop := exists f m s, o = ECS f m s a.
Definition first_subnet (q : msg) (a : bytes) : Prop :=
  exists pre r post l o l', m_extra q = pre ++ r :: post /\ rr_type r = 41 /\ Forall (fun x => rr_type x <> 41) post /\
    rr_data r = DOPT (l ++ o :: l') /\ subnet_option o a /\ Forall (fun o => forall a, ~ subnet_option o a) l.
(** The address a client blocklist goes by *)
Definition client_addr (useECS : bool) (q : msg) (ci : client) (a : bytes) : Prop :=
  (useECS = true /\ first_subnet q a) \/
  ((useECS = false \/ forall b, ~ first_subnet q b) /\ a = ci_ip ci).

(** Records with addresses *)
Definition has_addr (r : rr) (ip : bytes) : Prop := rr_data r = DA ip \/ rr_data r = DAAAA ip.
(** Records an address list objects to: those on it, or off it if inverted *)
Definition objectionable (listed : bytes -> Prop) (inverted : bool) (r : rr) : Prop :=
  exists ip, has_addr r ip /\ (if inverted then ~ listed ip else listed ip).
Definition records (a : msg) : list rr := m_answer a ++ m_ns a ++ m_extra a.

(** Texts of records a name list is applied to; kv renders a service parameter. *)
Inductive text_of (kv : N -> string) (r : rr) : string -> Prop :=
| T_cname s : rr_data r = DCNAME s -> text_of kv r s
| T_mx p s : rr_data r = DMX p s -> text_of kv r s
| T_ns s : rr_data r = DNS s -> text_of kv r s
| T_ptr s : rr_data r = DPTR s -> text_of kv r s
| T_srv p w o s : rr_data r = DSRV p w o s -> text_of kv r s
| T_txt l : rr_data r = DTXT l -> text_of kv r (String.concat " " l)
| T_svcb p s l : rr_data r = DSVCB p s l -> text_of kv r (String.concat " " (s :: map kv l))
| T_https p s l : rr_data r = DHTTPS p s l -> text_of kv r (String.concat " " (s :: map kv l))
| T_soa s m a b c d e : rr_data r = DSOA s m a b c d e -> text_of kv r s.
(** The question that a text of a record is looked up with *)
Definition text_query (id : N) (s : string) : msg :=
  Msg id false 0 false false true false false false 0 [Q s 0 1] [] [] [].
