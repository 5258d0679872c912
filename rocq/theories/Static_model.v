(** Fixed answers: static.go, static-template.go, template.go, message.go (copyRRs), drop.go.
    dns.NewRR and the template engine (text/template) are oracles. The records of static.go are shared by all its responses, so they are
    modelled with the pointers to them. *)
From Verif Require Import Base Bytes Dns Blocklist_model.
Local Open Scope N_scope.

(** The records that exist; a pointer is a position. *)
Definition heap := list rr.
Definition ptr := nat.
(** static.go:12-20: the configured records; [None] is a nil record *)
Record static := Static { s_answer : list (option ptr); s_ns : list (option ptr); s_extra : list (option ptr); s_rcode : N; s_truncate : bool; s_ede : option edetemplate }.

Section NewRR.
(** dns.NewRR: [None] is an error, [Some None] a text that holds no record, for which it returns nil without an error *)
Variable newRR : string -> option (option rr).

(** static.go:40-60: one of the three loops of NewStaticResolver *)
Fixpoint read_records (h : heap) (texts : list string) : option (heap * list (option ptr)) :=
  match texts with
  | [] => Some (h, [])
  | t :: texts' =>
      match newRR t with
      | None => None
      | Some None => match read_records h texts' with Some (h', l) => Some (h', None :: l) | None => None end
      | Some (Some r) => match read_records (h ++ [r]) texts' with Some (h', l) => Some (h', Some (length h) :: l) | None => None end
      end
  end.
(** static.go:35-63 NewStaticResolver *)
Definition newStatic (h : heap) (answer ns extra : list string) (rcode : N) (truncate : bool) (ede : option edetemplate) : option (heap * static) :=
  match read_records h answer with
  | None => None
  | Some (h1, a) =>
      match read_records h1 ns with
      | None => None
      | Some (h2, n) =>
          match read_records h2 extra with
          | None => None
          | Some (h3, e) => Some (h3, Static a n e rcode truncate ede)
          end
      end
  end.
End NewRR.

(** message.go:118-127 copyRRs; [None] is the panic of dns.Copy for a nil record *)
Fixpoint copyRRs (h : heap) (l : list (option ptr)) : option (heap * list ptr) :=
  match l with
  | [] => Some (h, [])
  | None :: _ => None
  | Some p :: l' =>
      match nth_error h p with
      | None => None
      | Some r => match copyRRs (h ++ [r]) l' with Some (h', c) => Some (h', length h :: c) | None => None end
      end
  end.
Fixpoint write (h : heap) (p : ptr) (r : rr) : heap :=
  match h, p with
  | [], _ => []
  | _ :: h', O => r :: h'
  | x :: h', S p' => x :: write h' p' r
  end.
(** static.go:80-82: the loop that sets the owner names *)
Fixpoint rename (h : heap) (name : string) (l : list ptr) : heap :=
  match l with
  | [] => h
  | p :: l' => rename (match nth_error h p with Some r => write h p (set_name name r) | None => h end) name l'
  end.
(** What the pointers point to *)
Definition deref (h : heap) (l : list ptr) : list rr := flat_map (fun p => match nth_error h p with Some r => [r] | None => [] end) l.

(** static.go:69-93 Resolve: the records after it, the pointers in the response, and the response. The OPT record that the template may add
    is new and in no other response; it is not among the pointers. *)
Definition static_resolve (s : static) (h : heap) (q : msg) : option (heap * list ptr * msg) :=
  match copyRRs h (s_answer s) with
  | None => None
  | Some (h1, a) =>
      match copyRRs h1 (s_ns s) with
      | None => None
      | Some (h2, n) =>
          match copyRRs h2 (s_extra s) with
          | None => None
          | Some (h3, e) =>
              let h4 := rename h3 (qName q) a in
              let m := set_reply empty_msg q in
              let m := set_aa true (set_ra true m) in
              let m := set_extra (deref h4 e) (set_ns (deref h4 n) (set_answer (deref h4 a) m)) in
              let m := set_tc (s_truncate s) (set_rcode_field (s_rcode s) m) in
              Some (h4, a ++ n ++ e, ede_apply (s_ede s) m q None)
          end
      end
  end.

(** A running program: queries are answered, and whoever holds a response writes into its records. *)
Inductive sevent := Query (q : msg) | Modify (p : ptr) (r : rr).
(** The records, and the pointers that have left in responses; [None] is a crash *)
Definition srun1 (s : static) (st : heap * list ptr) (e : sevent) : option (heap * list ptr) :=
  match e with
  | Query q => match static_resolve s (fst st) q with Some (h, l, _) => Some (h, l ++ snd st) | None => None end
  | Modify p r => if existsb (Nat.eqb p) (snd st) then Some (write (fst st) p r, snd st) else Some st
  end.
Fixpoint srun (s : static) (st : heap * list ptr) (es : list sevent) : option (heap * list ptr) :=
  match es with
  | [] => Some st
  | e :: es' => match srun1 s st e with Some st' => srun s st' es' | None => None end
  end.

(** template.go:33-40 templateInput *)
Record tinput := TInput { t_id : N; t_question : string; t_class : string; t_type : string }.
Section Template.
Variable newRR : string -> option (option rr).
(** dns.ClassToString, dns.TypeToString: empty for what they do not hold *)
Variable classToString typeToString : N -> string.
(** static-template.go:87-96 *)
Definition input_of (q : msg) : tinput :=
  match m_question q with
  | [] => TInput (m_id q) EmptyString (classToString 0) (typeToString 0)
  | x :: _ => TInput (m_id q) (q_name x) (classToString (q_class x)) (typeToString (q_type x))
  end.
(** static-template.go:97-113: the loop of processRRTemplates. A template is what Apply (template.go:47-55) makes of its input; [None] is
    an error. [None] in the result is a nil record. *)
Fixpoint process (input : tinput) (templates : list (tinput -> option string)) : list (option rr) :=
  match templates with
  | [] => []
  | t :: templates' =>
      match t input with
      | None => process input templates'
      | Some text => match newRR text with
                     | None => process input templates'
                     | Some r => r :: process input templates'
                     end
      end
  end.
(** static-template.go:54-75 Resolve: the message without its records, and the three sections. The record that edns0ede.go adds comes last
    in the additional section. *)
Definition template_resolve (answer ns extra : list (tinput -> option string)) (rcode : N) (truncate : bool) (ede : option edetemplate) (q : msg) : msg * list (option rr) * list (option rr) * list (option rr) :=
  let m := set_aa true (set_ra true (set_reply empty_msg q)) in
  let m := set_tc truncate (set_rcode_field rcode m) in
  (m, process (input_of q) answer, process (input_of q) ns, process (input_of q) extra ++ map Some (m_extra (ede_apply ede m q None))).
End Template.

(** drop.go:22-25 Resolve *)
Definition drop_resolve (q : msg) : result := Drop.
