(** What a script may rely on when it works with messages, questions and OPT records. *)
From Verif Require Import Base Bytes Dns LuaVal_model LuaRR_model LuaRR_spec LuaMsg_model.
Local Open Scope nat_scope.

(** The parts of a message *)
Inductive part := PId | PResponse | POpcode | PAuthoritative | PTruncated | PRecursionDesired | PRecursionAvailable | PAuthenticated | PCheckingDisabled
| PRcode | PQuestions | PAnswer | PNs | PExtra.
Inductive pval := PNum (z : Z) | PBit (b : bool) | PQs (l : list question) | PRecs (l : list nat).
Definition question_at (h : store) (a i : nat) : option question := nth_error (nth a (arrays h) []) i.
Definition part_of (h : store) (a : nat) (p : part) : option pval :=
  option_map (fun m =>
    match p with
    | PId => PNum (Z.of_N (g_id m)) | PResponse => PBit (g_response m) | POpcode => PNum (g_opcode m) | PAuthoritative => PBit (g_aa m)
    | PTruncated => PBit (g_tc m) | PRecursionDesired => PBit (g_rd m) | PRecursionAvailable => PBit (g_ra m) | PAuthenticated => PBit (g_ad m)
    | PCheckingDisabled => PBit (g_cd m) | PRcode => PNum (g_rcode m) | PQuestions => PQs (nth (g_question m) (arrays h) [])
    | PAnswer => PRecs (g_answer m) | PNs => PRecs (g_ns m) | PExtra => PRecs (g_extra m)
    end) (nth_error (msgs h) a).
(** Their names in scripts *)
Definition script_names : list (string * part) :=
  [("questions", PQuestions); ("id", PId); ("response", PResponse); ("rcode", PRcode); ("recursion_desired", PRecursionDesired);
   ("recursion_available", PRecursionAvailable); ("authoritative", PAuthoritative); ("authenticated_data", PAuthenticated);
   ("answer", PAnswer); ("ns", PNs); ("extra", PExtra)]%string.
Definition methods : list string := ["set_reply"; "set_question"; "is_edns0"; "set_edns0"]%string.

(** Numbers have their sizes, references lead somewhere, and no two messages share their questions. *)
Record store_ok (h : store) : Prop := {
  ok_msgs : Forall (fun m => (g_id m < 2 ^ 16)%N /\ (- 2 ^ 63 <= g_rcode m < 2 ^ 63)%Z /\ g_question m < length (arrays h) /\
                             Forall (fun o => o < length (records h)) (g_answer m ++ g_ns m ++ g_extra m)) (msgs h);
  ok_questions : Forall (Forall (fun q => q_type q < 2 ^ 16 /\ q_class q < 2 ^ 16)%N) (arrays h);
  ok_separate : NoDup (map g_question (msgs h));
  ok_records : Forall record_ok (records h) }.
Definition ref_ok (h : store) (r : ref) : Prop :=
  match r with RMsg a => a < length (msgs h) | RQuestion a i => question_at h a i <> None | RRecord a => a < length (records h) | _ => True end.
Fixpoint refs_of (v : lval) : list ref := match v with LUser r => [r] | LTab l => flat_map refs_of l | _ => [] end.

(** How a part is shown to a script *)
Definition a_question (h : store) (q : question) (v : lval) : Prop := exists a i, v = LUser (RQuestion a i) /\ question_at h a i = Some q.
Definition a_record (o : nat) (v : lval) : Prop := v = LUser (RRecord o).
Inductive shows_part (h : store) : pval -> lval -> Prop :=
| shows_num : forall z x, ((Z.abs z <= 2 ^ 53)%Z -> denotes x z) -> shows_part h (PNum z) (LNum x)
| shows_bit : forall b, shows_part h (PBit b) (LBool b)
| shows_questions : forall qs l, Forall2 (a_question h) qs l -> shows_part h (PQs qs) (LTab l)
| shows_records : forall os l, Forall2 a_record os l -> shows_part h (PRecs os) (LTab l).
(** What is stored for a value that a script assigns *)
Inductive takes_part (h : store) : part -> lval -> pval -> Prop :=
| takes_id : forall x z, (0 <= z < 2 ^ 16)%Z -> (forall y, denotes x y -> (- 2 ^ 63 <= y < 2 ^ 63)%Z -> z = (y mod 2 ^ 16)%Z) -> takes_part h PId (LNum x) (PNum z)
| takes_rcode : forall x z, (forall y, denotes x y -> (- 2 ^ 63 <= y < 2 ^ 63)%Z -> z = y) -> takes_part h PRcode (LNum x) (PNum z)
| takes_bit : forall p b, In p [PResponse; PRecursionDesired; PRecursionAvailable; PAuthoritative; PAuthenticated] -> takes_part h p (LBool b) (PBit b)
| takes_questions : forall qs l, Forall2 (a_question h) qs l -> takes_part h PQuestions (LTab l) (PQs qs)
| takes_records : forall p os l, In p [PAnswer; PNs; PExtra] -> Forall2 a_record os l -> takes_part h p (LTab l) (PRecs os).
(** Nothing but one part of one message has changed. Questions that a script holds are as before. *)
Definition only_changed (h h' : store) (a : nat) (ps : list part) : Prop :=
  (forall b p, (b = a -> ~ In p ps) -> part_of h' b p = part_of h b p) /\
  (forall o r, nth_error (records h) o = Some r -> nth_error (records h') o = Some r) /\
  (forall b i q, question_at h b i = Some q -> question_at h' b i = Some q).

(** The effect of an assignment to a question. A number in place of a string and a string that reads as a number are taken as such. *)
Definition number_of (parseNumber : string -> option num) (v : lval) (x : num) : Prop := v = LNum x \/ exists s, v = LStr s /\ parseNumber s = Some x.
Definition text_of (numberText : num -> string) (v : lval) (s : string) : Prop := v = LStr s \/ exists x, v = LNum x /\ numberText x = s.
Inductive question_assigned (parseNumber : string -> option num) (numberText : num -> string) (q q' : question) : string -> lval -> Prop :=
| assigned_qname : forall v s, text_of numberText v s -> q' = Q s (q_type q) (q_class q) -> question_assigned parseNumber numberText q q' "name" v
| assigned_qtype : forall v x n, number_of parseNumber v x -> stores 16 x n -> q' = Q (q_name q) n (q_class q) -> question_assigned parseNumber numberText q q' "qtype" v
| assigned_qclass : forall v x n, number_of parseNumber v x -> stores 16 x n -> q' = Q (q_name q) (q_type q) n -> question_assigned parseNumber numberText q q' "qclass" v.

(** An OPT record's TTL: eight bits of the response code, the version, the DO bit, and fifteen other bits *)
Definition ttl_is (ttl ext ver : N) (dobit : bool) (rest : N) : Prop :=
  (ext < 2 ^ 8 /\ ver < 2 ^ 8 /\ rest < 2 ^ 15 /\ ttl = ext * 2 ^ 24 + ver * 2 ^ 16 + (if dobit then 2 ^ 15 else 0) + rest)%N.
Definition is_opt (r : rr) : Prop := rr_type r = [FHdr; FPlain "Option" KEdns].
(** What an OPT record says *)
Record optview := View { ov_size : N; ov_ext : N; ov_version : N; ov_do : bool; ov_rest : N; ov_options : list nat }.
Definition opt_is (r : rr) (v : optview) : Prop :=
  is_opt r /\ h_class (rr_hdr r) = ov_size v /\ ttl_is (h_ttl (rr_hdr r)) (ov_ext v) (ov_version v) (ov_do v) (ov_rest v) /\ rr_vals r = [VHdr; VEdns (ov_options v)].
Inductive opt_assigned (parseNumber : string -> option num) : string -> lval -> optview -> optview -> Prop :=
| assigned_size : forall v x n a b c d e f, number_of parseNumber v x -> stores 16 x n -> opt_assigned parseNumber "udp_size" v (View a b c d e f) (View n b c d e f)
| assigned_do : forall y a b c d e f, opt_assigned parseNumber "do_bit" (LBool y) (View a b c d e f) (View a b c y e f)
| assigned_version : forall v x n a b c d e f, number_of parseNumber v x -> stores 8 x n -> opt_assigned parseNumber "version" v (View a b c d e f) (View a b n d e f)
| assigned_rcode : forall v x n a b c d e f, number_of parseNumber v x -> stores 16 x n ->
    opt_assigned parseNumber "extended_rcode" v (View a b c d e f) (View a ((n / 2 ^ 4) mod 2 ^ 8)%N c d e f)
| assigned_option : forall l a b c d e f, opt_assigned parseNumber "option" (LTab (map (fun o => LUser (ROption o)) l)) (View a b c d e f) (View a b c d e l).
(** Values that may be assigned to an OPT record *)
Inductive opt_takes (parseNumber : string -> option num) : string -> lval -> Prop :=
| takes_size : forall v x, number_of parseNumber v x -> opt_takes parseNumber "udp_size" v
| takes_do : forall b, opt_takes parseNumber "do_bit" (LBool b)
| takes_version : forall v x, number_of parseNumber v x -> opt_takes parseNumber "version" v
| takes_ext : forall v x, number_of parseNumber v x -> opt_takes parseNumber "extended_rcode" v
| takes_option : forall l, (forall v, In v l -> exists o, v = LUser (ROption o)) -> opt_takes parseNumber "option" (LTab l).

(** Values that a script can make of references it has *)
Definition made_of (known : list ref) (v : lval) : Prop := incl (refs_of v) known.
(** Operations that a script can do with them *)
Definition possible (known : list ref) (o : op) : Prop :=
  match o with
  | ONew => True
  | OGet a _ | OIsEdns a => In (RMsg a) known
  | OSet a _ v => In (RMsg a) known /\ made_of known v
  | OReply a b => In (RMsg a) known /\ In (RMsg b) known
  | OAsk a id v w => In (RMsg a) known /\ (id < 2 ^ 16)%N
  | OEdns a v w => In (RMsg a) known
  | OQNew args | OOptNew args => True
  | OQGet a i _ => In (RQuestion a i) known
  | OQSet a i _ v => In (RQuestion a i) known
  | OOptGet o _ | ORGet o _ => In (RRecord o) known
  | OOptSet o _ v | ORSet o _ v => In (RRecord o) known /\ made_of known v
  end.
(** A script runs: what an operation gives is known from then on. *)
Inductive script (next : store -> op -> store * option lval) : store -> list ref -> store -> list ref -> Prop :=
| script_done : forall h k, script next h k h k
| script_step : forall h k o h1 res h2 k2, possible k o -> next h o = (h1, res) ->
    script next h1 (k ++ match res with Some v => refs_of v | None => [] end) h2 k2 -> script next h k h2 k2.
(** The record at an address says that its type is OPT. *)
Definition typed41 (rs : list rr) (o : nat) : Prop := exists r, nth_error rs o = Some r /\ h_type (rr_hdr r) = 41%N.
