(** The DNS message model and the helper functions of github.com/miekg/dns v1.1.72 used
    by the code. The library is not in the sandbox; these definitions state what is relied
    upon (trusted base). *)
From Verif Require Import Base Bytes.
Open Scope N_scope.

(** dns.Question *)
Record question := Q { q_name : string; q_type : N; q_class : N }.

(** EDNS0 options, as the Go types the code switches on. *)
Inductive edns0 :=
| ECS (family mask scope : N) (address : bytes)        (* EDNS0_SUBNET; [] is a nil IP *)
| PADDING (data : bytes)                               (* EDNS0_PADDING *)
| EDE (code : N) (text : string)                       (* EDNS0_EDE *)
| KEEPALIVE (timeout : N)                              (* EDNS0_TCP_KEEPALIVE *)
| LOCAL (code : N) (data : bytes)                      (* EDNS0_LOCAL *)
| OTHEROPT (code : N) (data : bytes).                  (* any other option *)

(** Option() of each type. *)
Definition opt_code (o : edns0) : N :=
  match o with
  | ECS _ _ _ _ => 8 | PADDING _ => 12 | EDE _ _ => 15 | KEEPALIVE _ => 11
  | LOCAL c _ => c | OTHEROPT c _ => c
  end.

Inductive rdata :=
| DA (ip : bytes) | DAAAA (ip : bytes)
| DCNAME (target : string) | DNS (ns : string) | DPTR (ptr : string)
| DMX (pref : N) (mx : string)
| DSRV (prio weight port : N) (target : string)
| DSOA (ns mbox : string) (serial refresh retry expire minttl : N)
| DTXT (txt : list string)
| DSVCB (prio : N) (target : string) (params : list N)
| DHTTPS (prio : N) (target : string) (params : list N)
| DOPT (options : list edns0)
| DRRSIG (covered alg labels origttl expiration inception keytag : N) (signer sig : string)
| DNSEC (next : string) (types : list N)
| DNSEC3 (hash flags iterations : N) (salt next : string) (types : list N)
| DDNSKEY (flags proto alg : N) (key : string)
| DDS (keytag alg digesttype : N) (digest : string)
| DOTHER (data : bytes).

(** A resource record: dns.RR_Header and the data. *)
Record rr := RR { rr_name : string; rr_type : N; rr_class : N; rr_ttl : N; rr_data : rdata }.

(** dns.Msg (MsgHdr flattened; the Zero bit and Compress are not modelled). *)
Record msg := Msg {
  m_id : N; m_response : bool; m_opcode : N; m_aa : bool; m_tc : bool; m_rd : bool;
  m_ra : bool; m_ad : bool; m_cd : bool; m_rcode : N;
  m_question : list question; m_answer : list rr; m_ns : list rr; m_extra : list rr }.

Definition empty_msg : msg := Msg 0 false 0 false false false false false false 0 [] [] [] [].

(* record updates *)
Definition set_id (v : N) (m : msg) : msg :=
  Msg v (m_response m) (m_opcode m) (m_aa m) (m_tc m) (m_rd m) (m_ra m) (m_ad m) (m_cd m) (m_rcode m) (m_question m) (m_answer m) (m_ns m) (m_extra m).
Definition set_ra (v : bool) (m : msg) : msg :=
  Msg (m_id m) (m_response m) (m_opcode m) (m_aa m) (m_tc m) (m_rd m) v (m_ad m) (m_cd m) (m_rcode m) (m_question m) (m_answer m) (m_ns m) (m_extra m).
Definition set_aa (v : bool) (m : msg) : msg :=
  Msg (m_id m) (m_response m) (m_opcode m) v (m_tc m) (m_rd m) (m_ra m) (m_ad m) (m_cd m) (m_rcode m) (m_question m) (m_answer m) (m_ns m) (m_extra m).
Definition set_tc (v : bool) (m : msg) : msg :=
  Msg (m_id m) (m_response m) (m_opcode m) (m_aa m) v (m_rd m) (m_ra m) (m_ad m) (m_cd m) (m_rcode m) (m_question m) (m_answer m) (m_ns m) (m_extra m).
Definition set_ad (v : bool) (m : msg) : msg :=
  Msg (m_id m) (m_response m) (m_opcode m) (m_aa m) (m_tc m) (m_rd m) (m_ra m) v (m_cd m) (m_rcode m) (m_question m) (m_answer m) (m_ns m) (m_extra m).
Definition set_rcode_field (v : N) (m : msg) : msg :=
  Msg (m_id m) (m_response m) (m_opcode m) (m_aa m) (m_tc m) (m_rd m) (m_ra m) (m_ad m) (m_cd m) v (m_question m) (m_answer m) (m_ns m) (m_extra m).
Definition set_question (v : list question) (m : msg) : msg :=
  Msg (m_id m) (m_response m) (m_opcode m) (m_aa m) (m_tc m) (m_rd m) (m_ra m) (m_ad m) (m_cd m) (m_rcode m) v (m_answer m) (m_ns m) (m_extra m).
Definition set_answer (v : list rr) (m : msg) : msg :=
  Msg (m_id m) (m_response m) (m_opcode m) (m_aa m) (m_tc m) (m_rd m) (m_ra m) (m_ad m) (m_cd m) (m_rcode m) (m_question m) v (m_ns m) (m_extra m).
Definition set_ns (v : list rr) (m : msg) : msg :=
  Msg (m_id m) (m_response m) (m_opcode m) (m_aa m) (m_tc m) (m_rd m) (m_ra m) (m_ad m) (m_cd m) (m_rcode m) (m_question m) (m_answer m) v (m_extra m).
Definition set_extra (v : list rr) (m : msg) : msg :=
  Msg (m_id m) (m_response m) (m_opcode m) (m_aa m) (m_tc m) (m_rd m) (m_ra m) (m_ad m) (m_cd m) (m_rcode m) (m_question m) (m_answer m) (m_ns m) v.

Definition set_ttl (t : N) (r : rr) : rr := RR (rr_name r) (rr_type r) (rr_class r) t (rr_data r).
Definition set_name (n : string) (r : rr) : rr := RR n (rr_type r) (rr_class r) (rr_ttl r) (rr_data r).
Definition set_data (d : rdata) (r : rr) : rr := RR (rr_name r) (rr_type r) (rr_class r) (rr_ttl r) d.

(* record types, classes, rcodes, opcodes *)
Definition TypeA : N := 1.     Definition TypeNS : N := 2.    Definition TypeCNAME : N := 5.
Definition TypeSOA : N := 6.   Definition TypePTR : N := 12.  Definition TypeMX : N := 15.
Definition TypeTXT : N := 16.  Definition TypeAAAA : N := 28. Definition TypeSRV : N := 33.
Definition TypeDNAME : N := 39. Definition TypeOPT : N := 41. Definition TypeDS : N := 43.
Definition TypeRRSIG : N := 46. Definition TypeNSEC : N := 47. Definition TypeDNSKEY : N := 48.
Definition TypeNSEC3 : N := 50. Definition TypeSVCB : N := 64. Definition TypeHTTPS : N := 65.
Definition TypeANY : N := 255.
Definition ClassINET : N := 1.
Definition RcodeSuccess : N := 0.  Definition RcodeFormatError : N := 1.
Definition RcodeServerFailure : N := 2. Definition RcodeNameError : N := 3.
Definition RcodeNotImplemented : N := 4. Definition RcodeRefused : N := 5.
Definition OpcodeQuery : N := 0. Definition OpcodeNotify : N := 4.

(** a.( *dns.OPT ) succeeds *)
Definition is_opt (r : rr) : bool := match rr_data r with DOPT _ => true | _ => false end.

(** OPT record fields: UDPSize is the class, Do is bit 15 of the TTL. *)
Definition opt_udpsize (r : rr) : N := rr_class r.
Definition opt_do (r : rr) : bool := N.testbit (rr_ttl r) 15.
Definition opt_options (r : rr) : list edns0 := match rr_data r with DOPT o => o | _ => [] end.
Definition opt_set_udpsize (n : N) (r : rr) : rr := RR (rr_name r) (rr_type r) n (rr_ttl r) (rr_data r).
Definition opt_set_do (b : bool) (r : rr) : rr :=
  RR (rr_name r) (rr_type r) (rr_class r) (if b then N.setbit (rr_ttl r) 15 else N.clearbit (rr_ttl r) 15) (rr_data r).
Definition opt_set_options (o : list edns0) (r : rr) : rr := set_data (DOPT o) r.

(** Msg.IsEdns0: the last record of the additional section whose type is OPT. *)
Fixpoint find_opt (l : list rr) : option rr :=
  match l with
  | [] => None
  | r :: l' => match find_opt l' with
               | Some x => Some x
               | None => if N.eqb (rr_type r) TypeOPT then Some r else None
               end
  end.
Definition is_edns0 (m : msg) : option rr := find_opt (m_extra m).

(** Modification of the record IsEdns0 points to. *)
Fixpoint map_opt (f : rr -> rr) (l : list rr) : list rr :=
  match l with
  | [] => []
  | r :: l' => match find_opt l' with
               | Some _ => r :: map_opt f l'
               | None => if N.eqb (rr_type r) TypeOPT then f r :: l' else r :: l'
               end
  end.
Definition update_edns0 (f : rr -> rr) (m : msg) : msg := set_extra (map_opt f (m_extra m)) m.

(** Msg.SetEdns0(size, do): appends an OPT record. *)
Definition new_opt (size : N) (do : bool) (o : list edns0) : rr :=
  RR "."%string TypeOPT size (if do then 2^15 else 0) (DOPT o).
Definition set_edns0 (size : N) (do : bool) (m : msg) : msg :=
  set_extra (m_extra m ++ [new_opt size do []]) m.

(** Msg.SetReply / SetRcode on message [m] for request [req]. *)
Definition set_reply (m req : msg) : msg :=
  let query := N.eqb (m_opcode req) OpcodeQuery in
  Msg (m_id req) true (m_opcode req) (m_aa m) (m_tc m)
      (if query then m_rd req else m_rd m) (m_ra m) (m_ad m)
      (if query then m_cd req else m_cd m) RcodeSuccess
      (match m_question req with q :: _ => [q] | [] => m_question m end)
      (m_answer m) (m_ns m) (m_extra m).
Definition set_rcode (m req : msg) (rcode : N) : msg := set_rcode_field rcode (set_reply m req).

(** message.go:71-91 nxdomain, servfail, refused, responseWithCode *)
Definition responseWithCode (q : msg) (rcode : N) : msg := set_ra true (set_rcode empty_msg q rcode).
Definition nxdomain (q : msg) : msg := responseWithCode q RcodeNameError.
Definition servfail (q : msg) : msg := responseWithCode q RcodeServerFailure.
Definition refused (q : msg) : msg := responseWithCode q RcodeRefused.

(** message.go:40-45 qName *)
Definition qName (q : msg) : string := match m_question q with [] => EmptyString | x :: _ => q_name x end.

(** message.go:24-37 validateResponseQuestion; true is a nil error *)
Definition validateResponseQuestion (q a : msg) : bool :=
  match m_question q with
  | [] => true
  | question :: _ =>
      match m_question a with
      | [] => false
      | answer :: _ =>
          equal_fold (q_name answer) (q_name question) &&
          N.eqb (q_class answer) (q_class question) && N.eqb (q_type answer) (q_type question)
      end
  end.

(** message.go:58-60 isReplayableOpcode *)
Definition isReplayableOpcode (opcode : N) : bool :=
  N.eqb opcode OpcodeQuery || N.eqb opcode OpcodeNotify.

(** message.go:94-113 ptr. Panics without a question, expressed by [None]. *)
Definition ptr (q : msg) (names : list string) : option msg :=
  match m_question q with
  | [] => match names with [] => Some (set_ra true (set_reply empty_msg q)) | _ => None end
  | x :: _ =>
      Some (set_answer (map (fun n => RR (q_name x) TypePTR ClassINET 3600 (DPTR (fqdn n))) names)
             (set_ra true (set_reply empty_msg q)))
  end.

(** message.go:132-147 setUDPSize *)
Definition setUDPSize (q : msg) (size : N) : msg :=
  if N.eqb size 0 then q
  else match is_edns0 q with
       | Some _ => update_edns0 (opt_set_udpsize size) q
       | None => set_edns0 size false q
       end.

(** The outcome of Resolver.Resolve: a message, (nil, nil) = drop, or an error. *)
Inductive result := Ans (m : msg) | Drop | Err (e : string).

(** ClientInfo (resolver.go): the fields the code uses. [] is a nil SourceIP. *)
Record client := Client {
  ci_ip : bytes; ci_dohpath : string; ci_tlsserver : string; ci_listener : string }.
