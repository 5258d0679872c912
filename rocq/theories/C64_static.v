(** C64: fixed answers (static.go, static-template.go, template.go, drop.go). *)
From Verif Require Import Base Bytes Dns Blocklist_model Static_model Static_spec Static_proofs.
Local Open Scope N_scope.

(** A static resolver whose texts are records answers every query with copies of these records, the answers renamed to the name asked for,
    and with the configured code, truncation and extended error. This holds after any number of queries and whatever has been written into
    the records of earlier responses. *)
Theorem C64_static : forall newRR h ta tn te rc tc ede A N E,
  Forall2 (fun t r => newRR t = Some (Some r)) ta A -> Forall2 (fun t r => newRR t = Some (Some r)) tn N -> Forall2 (fun t r => newRR t = Some (Some r)) te E ->
  exists h0 s, newStatic newRR h ta tn te rc tc ede = Some (h0, s) /\ forall es, exists st, srun s (h0, []) es = Some st /\
    forall q, exists h' l a, static_resolve s (fst st) q = Some (h', l, a) /\ fixed_reply A N E rc tc (ede_of ede q) q a.
Proof. exact static_fixed. Qed.
Print Assumptions C64_static.
(** A text that cannot be parsed is an error at the start. *)
Theorem C64_rejects : forall newRR h ta tn te rc tc ede, Exists (fun t => newRR t = None) (ta ++ tn ++ te) -> newStatic newRR h ta tn te rc tc ede = None.
Proof. exact static_rejects. Qed.
Print Assumptions C64_rejects.
(** A text without a record is not: dns.NewRR returns a nil record for it, and every query crashes. *)
Theorem C64_blank_refuted : forall newRR, newRR EmptyString = Some None -> exists h s, newStatic newRR [] [EmptyString] [] [] 0 false None = Some (h, s) /\ forall h' q, static_resolve s h' q = None.
Proof. exact static_nil. Qed.
Print Assumptions C64_blank_refuted.
(** Templates: unless one of them makes a text without a record, the response consists of the records that the templates make of the query,
    in their order; a template that fails, or whose text cannot be parsed, is left out. *)
Theorem C64_template : forall newRR (cts tts : N -> string) ta tn te rc tc ede q, (forall t text, In t (ta ++ tn ++ te) -> t (input_of cts tts q) = Some text -> newRR text <> Some None) ->
  exists m A N E x, template_resolve newRR cts tts ta tn te rc tc ede q = (m, map Some A, map Some N, map Some (E ++ x)) /\
    rendered newRR (input_of cts tts q) ta A /\ rendered newRR (input_of cts tts q) tn N /\ rendered newRR (input_of cts tts q) te E /\
    fixed_reply [] [] [] rc tc (ede_of ede q) q (set_extra x m).
Proof. exact template_ok. Qed.
Print Assumptions C64_template.
Theorem C64_rendered : forall newRR (i : tinput) ts rs1, rendered newRR i ts rs1 -> forall rs2, rendered newRR i ts rs2 -> rs1 = rs2.
Proof. exact (@rendered_fun tinput). Qed.
Print Assumptions C64_rendered.
Theorem C64_input : forall (cts tts : N -> string) q x rest, m_question q = x :: rest -> input_of cts tts q = TInput (m_id q) (q_name x) (cts (q_class x)) (tts (q_type x)).
Proof. exact input_fields. Qed.
Print Assumptions C64_input.
(** A template that makes an empty text, for instance one that is conditional on the type, puts a nil record into the response. *)
Theorem C64_template_refuted : forall newRR, newRR EmptyString = Some None -> exists ta, forall cts tts q, exists m n e, template_resolve newRR cts tts ta [] [] 0 false None q = (m, [None], n, e).
Proof. exact template_nil. Qed.
Print Assumptions C64_template_refuted.

(** A static resolver, a response whose record is overwritten, and the next response *)
Definition demo_newRR (s : string) : option (option rr) :=
  if String.eqb s EmptyString then Some None else if String.eqb s "x 60 IN A 192.0.2.1" then Some (Some (RR "x." 1 1 60 (DA [192; 0; 2; 1]))) else None.
Definition demo_query : msg := Msg 7 false 0 false false true false false false 0 [Q "a.example." 1 1] [] [] [].
Example C64_again : match newStatic demo_newRR [] ["x 60 IN A 192.0.2.1"]%string [] [] 0 false None with
  | Some (h, s) => match srun s (h, []) [Query demo_query; Modify 1%nat (RR "evil." 1 1 0 (DA [6; 6; 6; 6]))] with
                   | Some (h1, l) => (h1, l, option_map (fun x => m_answer (snd x)) (static_resolve s h1 demo_query))
                   | None => ([], [], None)
                   end
  | None => ([], [], None)
  end = ([RR "x." 1 1 60 (DA [192; 0; 2; 1]); RR "evil." 1 1 0 (DA [6; 6; 6; 6])], [1%nat], Some [RR "a.example." 1 1 60 (DA [192; 0; 2; 1])]).
Proof. vm_compute. reflexivity. Qed.
Example C64_tpl : process demo_newRR (input_of (fun _ => "IN"%string) (fun t => if N.eqb t 1 then "A" else "")%string demo_query)
  [(fun i => if String.eqb (t_type i) "A" then Some "x 60 IN A 192.0.2.1" else Some "")%string; (fun _ => None); (fun i => Some (t_question i))] = [Some (RR "x." 1 1 60 (DA [192; 0; 2; 1]))].
Proof. vm_compute. reflexivity. Qed.
Example C64_drop : drop_resolve demo_query = Drop.
Proof. reflexivity. Qed.
