(** C74: messages, questions and OPT records in Lua scripts. *)
From Verif Require Import Base Bytes Dns LuaVal_model LuaRR_model LuaRR_spec LuaMsg_model LuaMsg_spec LuaMsg_proofs LuaMsg_proofs2 LuaMsg_proofs3 LuaMsg_proofs4.
Local Open Scope nat_scope.

(** Every documented name gives the part of the message, or one of the four methods; every other name is an error. *)
Theorem C74_read : forall h a name, store_ok h -> a < length (msgs h) ->
  match getMsg h a name with
  | Some v => (exists p w, In (name, p) script_names /\ part_of h a p = Some w /\ shows_part h w v) \/ In name methods /\ v = LFun
  | None => ~ In name (map fst script_names) /\ ~ In name methods
  end.
Proof. exact read. Qed.
Print Assumptions C74_read.

(** An assignment changes the part that is named to the value, and nothing else anywhere. *)
Theorem C74_write : forall far h a name v h', store_ok h -> setMsg far h a name v = (h', true) ->
  exists p w, In (name, p) script_names /\ takes_part h p v w /\ part_of h' a p = Some w /\ only_changed h h' a [p].
Proof. exact write. Qed.
Print Assumptions C74_write.

(** Values of the right type are taken. *)
Theorem C74_accepts : forall far h a name p v w, a < length (msgs h) -> In (name, p) script_names -> takes_part h p v w ->
  exists h', setMsg far h a name v = (h', true).
Proof. exact accepts. Qed.
Print Assumptions C74_accepts.

(** An assignment that fails has no effect. *)
Theorem C74_refused : forall far h a name v h', setMsg far h a name v = (h', false) -> h' = h.
Proof. exact refused. Qed.
Print Assumptions C74_refused.

(** The fields of a question *)
Theorem C74_question_read : forall h a i q, store_ok h -> question_at h a i = Some q ->
  (exists t c, getQuestion h a i "name" = Some (LStr (q_name q)) /\ getQuestion h a i "qtype" = Some (LNum t) /\ denotes t (Z.of_N (q_type q)) /\
     getQuestion h a i "qclass" = Some (LNum c) /\ denotes c (Z.of_N (q_class q))) /\
  forall name, ~ In name ["name"; "qtype"; "qclass"]%string -> getQuestion h a i name = None.
Proof. exact question_read. Qed.
Print Assumptions C74_question_read.

Theorem C74_question_write : forall far parseNumber numberText h a i name v h', setQuestionField far parseNumber numberText h a i name v = (h', true) ->
  exists q q', question_at h a i = Some q /\ question_assigned parseNumber numberText q q' name v /\ question_at h' a i = Some q' /\
    (forall b j, (b, j) <> (a, i) -> question_at h' b j = question_at h b j) /\
    (forall m p, p <> PQuestions -> part_of h' m p = part_of h m p) /\ records h' = records h.
Proof. exact question_write. Qed.
Print Assumptions C74_question_write.

Theorem C74_question_accepts : forall far parseNumber numberText h a i name v, ref_ok h (RQuestion a i) ->
  (snd (setQuestionField far parseNumber numberText h a i name v) = true <->
   name = "name"%string /\ (exists s, text_of numberText v s) \/ (name = "qtype"%string \/ name = "qclass"%string) /\ exists x, number_of parseNumber v x).
Proof. exact qset_iff. Qed.
Print Assumptions C74_question_accepts.

Theorem C74_question_refused : forall far parseNumber numberText h a i name v h', setQuestionField far parseNumber numberText h a i name v = (h', false) -> h' = h.
Proof. exact qset_refused. Qed.
Print Assumptions C74_question_refused.

(** Writing to a question that was read from a message changes that question of that message, and no other message. *)
Theorem C74_question_through : forall far parseNumber numberText h m l k a i name v h', store_ok h ->
  getMsg h m "questions" = Some (LTab l) -> nth_error l k = Some (LUser (RQuestion a i)) -> setQuestionField far parseNumber numberText h a i name v = (h', true) ->
  exists qs q q', part_of h m PQuestions = Some (PQs qs) /\ nth_error qs k = Some q /\ question_assigned parseNumber numberText q q' name v /\
    part_of h' m PQuestions = Some (PQs (firstn k qs ++ q' :: skipn (S k) qs)) /\
    forall m' p, m' <> m \/ p <> PQuestions -> part_of h' m' p = part_of h m' p.
Proof. exact question_through. Qed.
Print Assumptions C74_question_through.

(** Assigning questions copies them: writing to a question that the script had before no longer changes the message. *)
Theorem C74_question_copied : forall far parseNumber numberText h a v h1 b i name w h2 r, store_ok h -> setMsg far h a "questions" v = (h1, true) ->
  ref_ok h (RQuestion b i) -> setQuestionField far parseNumber numberText h1 b i name w = (h2, r) -> forall p, part_of h2 a p = part_of h1 a p.
Proof. exact stale. Qed.
Print Assumptions C74_question_copied.

Theorem C74_question_new : forall far parseNumber numberText args q, newQuestion far parseNumber numberText args = Some q ->
  match args with [] => q_name q = ""%string | v :: _ => text_of numberText v (q_name q) end /\
  match args with _ :: v :: _ => exists x, number_of parseNumber v x /\ stores 16 x (q_type q) | _ => q_type q = 0%N end /\
  match args with _ :: _ :: v :: _ => exists x, number_of parseNumber v x /\ stores 16 x (q_class q) | _ => q_class q = 1%N end.
Proof. exact question_new. Qed.
Print Assumptions C74_question_new.

(** set_reply makes a message the reply to another one; its other parts stay. *)
Theorem C74_reply : forall h a b, store_ok h -> a < length (msgs h) -> b < length (msgs h) ->
  let h' := setReply h a b in
  part_of h' a PId = part_of h b PId /\ part_of h' a PResponse = Some (PBit true) /\ part_of h' a POpcode = part_of h b POpcode /\ part_of h' a PRcode = Some (PNum 0) /\
  (forall p, In p [PRecursionDesired; PCheckingDisabled] ->
     (part_of h b POpcode = Some (PNum 0) -> part_of h' a p = part_of h b p) /\ (part_of h b POpcode <> Some (PNum 0) -> part_of h' a p = part_of h a p)) /\
  (forall q qs, part_of h b PQuestions = Some (PQs (q :: qs)) -> part_of h' a PQuestions = Some (PQs [q])) /\
  (part_of h b PQuestions = Some (PQs []) -> part_of h' a PQuestions = part_of h a PQuestions) /\
  only_changed h h' a [PId; PResponse; POpcode; PRcode; PRecursionDesired; PCheckingDisabled; PQuestions].
Proof. exact reply. Qed.
Print Assumptions C74_reply.

(** set_question makes it a query for one name and type in class IN. *)
Theorem C74_ask : forall far parseNumber numberText h a id v w h', store_ok h -> setQuestion far parseNumber numberText h a id v w = (h', true) ->
  exists s x n, text_of numberText v s /\ number_of parseNumber w x /\ stores 16 x n /\ part_of h' a PId = Some (PNum (Z.of_N id)) /\
    part_of h' a PRecursionDesired = Some (PBit true) /\ part_of h' a PQuestions = Some (PQs [Q s n 1]) /\ only_changed h h' a [PId; PRecursionDesired; PQuestions].
Proof. exact ask. Qed.
Print Assumptions C74_ask.
Theorem C74_ask_accepts : forall far parseNumber numberText h a id v w, a < length (msgs h) ->
  (snd (setQuestion far parseNumber numberText h a id v w) = true <-> (exists s, text_of numberText v s) /\ exists x, number_of parseNumber w x).
Proof. exact ask_iff. Qed.
Print Assumptions C74_ask_accepts.

(** is_edns0 gives the last OPT record, or nil if there is none. *)
Theorem C74_is_edns0 : forall h a l, part_of h a PExtra = Some (PRecs l) ->
  isEdns0 h a = LNil /\ (forall o, In o l -> ~ typed41 (records h) o) \/
  exists l1 o l2, l = l1 ++ o :: l2 /\ isEdns0 h a = LUser (RRecord o) /\ typed41 (records h) o /\ forall o', In o' l2 -> ~ typed41 (records h) o'.
Proof. exact is_edns. Qed.
Print Assumptions C74_is_edns0.

(** set_edns0 adds a new OPT record, which is_edns0 then gives. *)
Theorem C74_set_edns0 : forall far parseNumber h a v w h', store_ok h -> setEdns0 far parseNumber h a v w = (h', true) ->
  exists x n b l o r, number_of parseNumber v x /\ stores 16 x n /\ w = LBool b /\ part_of h a PExtra = Some (PRecs l) /\ part_of h' a PExtra = Some (PRecs (l ++ [o])) /\
    nth_error (records h) o = None /\ nth_error (records h') o = Some r /\ h_name (rr_hdr r) = "."%string /\ h_type (rr_hdr r) = 41%N /\
    opt_is r (View n 0 0 b 0 []) /\ isEdns0 h' a = LUser (RRecord o) /\ only_changed h h' a [PExtra].
Proof. exact set_edns. Qed.
Print Assumptions C74_set_edns0.
Theorem C74_set_edns0_accepts : forall far parseNumber h a v w, a < length (msgs h) ->
  (snd (setEdns0 far parseNumber h a v w) = true <-> (exists x, number_of parseNumber v x) /\ exists b, w = LBool b).
Proof. exact set_edns_iff. Qed.
Print Assumptions C74_set_edns0_accepts.

(** The fields of an OPT record. Of the response code the script sees the upper bits but for the first four of them. *)
Theorem C74_opt_view : forall r, record_ok r -> is_opt r -> exists v, opt_is r v.
Proof. exact opt_view. Qed.
Print Assumptions C74_opt_view.
Theorem C74_opt_read : forall r v, record_ok r -> opt_is r v ->
  (exists x, getOPT r "udp_size" = Some (LNum x) /\ denotes x (Z.of_N (ov_size v))) /\ getOPT r "do_bit" = Some (LBool (ov_do v)) /\
  (exists x, getOPT r "version" = Some (LNum x) /\ denotes x (Z.of_N (ov_version v))) /\
  (exists x, getOPT r "extended_rcode" = Some (LNum x) /\ denotes x (Z.of_N (ov_ext v * 2 ^ 4 mod 2 ^ 8)%N)) /\
  getOPT r "option" = Some (LTab (map (fun o => LUser (ROption o)) (ov_options v))) /\
  getOPT r "name" = Some (LStr (h_name (rr_hdr r))) /\ (exists x, getOPT r "rtype" = Some (LNum x) /\ denotes x (Z.of_N (h_type (rr_hdr r)))) /\
  forall name, ~ In name ["udp_size"; "do_bit"; "version"; "extended_rcode"; "option"; "name"; "rtype"]%string -> getOPT r name = None.
Proof. exact opt_read. Qed.
Print Assumptions C74_opt_read.
(** An assignment changes one field and leaves the others. *)
Theorem C74_opt_write : forall far parseNumber r view name v r', opt_is r view -> setOPT far parseNumber r name v = (r', true) ->
  exists view', opt_is r' view' /\ opt_assigned parseNumber name v view view' /\ (ov_size view < 2 ^ 16 -> ov_size view' < 2 ^ 16)%N /\
    h_name (rr_hdr r') = h_name (rr_hdr r) /\ h_type (rr_hdr r') = h_type (rr_hdr r) /\ h_rdlen (rr_hdr r') = h_rdlen (rr_hdr r).
Proof. exact opt_write. Qed.
Print Assumptions C74_opt_write.
Theorem C74_opt_accepts : forall far parseNumber r name v, is_opt r -> (snd (setOPT far parseNumber r name v) = true <-> opt_takes parseNumber name v).
Proof. exact opt_accepts. Qed.
Print Assumptions C74_opt_accepts.
Theorem C74_opt_refused : forall far parseNumber r name v r', setOPT far parseNumber r name v = (r', false) -> r' = r.
Proof. exact opt_refused. Qed.
Print Assumptions C74_opt_refused.
Theorem C74_opt_new : forall far parseNumber args r, newOPT far parseNumber args = Some r ->
  exists n b, opt_is r (View n 0 0 b 0 []) /\ h_name (rr_hdr r) = "."%string /\ h_type (rr_hdr r) = 41%N /\ h_rdlen (rr_hdr r) = 0%N /\ (n < 2 ^ 16)%N /\
    match args with v :: _ => exists x, number_of parseNumber v x /\ stores 16 x n | [] => n = 0%N end /\ match args with _ :: v :: _ => v = LBool b | _ => b = false end.
Proof. exact opt_new. Qed.
Print Assumptions C74_opt_new.
(** Response codes do not read back as they were written: 23 (BADCOOKIE) is 16, 256 is 0. *)
Theorem C74_rcode_refuted : ~ forall far parseNumber r x z r', record_ok r -> is_opt r -> denotes x z -> (0 <= z < 2 ^ 12)%Z -> setOPT far parseNumber r "extended_rcode" (LNum x) = (r', true) ->
  exists y, getOPT r' "extended_rcode" = Some (LNum y) /\ denotes y z.
Proof. exact rcode_refuted. Qed.
Print Assumptions C74_rcode_refuted.

(** Whatever a script does, with the values it was given and got since: the store stays well formed, so that the theorems above keep
    applying, and no reference is ever dangling. *)
Theorem C74_script : forall far parseNumber numberText ipString parseIP h known h' known',
  script (step far parseNumber numberText ipString parseIP) h known h' known' -> store_ok h -> Forall (ref_ok h) known ->
  store_ok h' /\ Forall (ref_ok h') known' /\ forall r, ref_ok h r -> ref_ok h' r.
Proof. exact script_ok. Qed.
Print Assumptions C74_script.
(** An operation that raises an error has changed nothing. *)
Theorem C74_errors : forall far parseNumber numberText ipString parseIP h known o h' , store_ok h -> Forall (ref_ok h) known -> possible known o ->
  step far parseNumber numberText ipString parseIP h o = (h', None) -> h' = h.
Proof. exact step_errors. Qed.
Print Assumptions C74_errors.

(** ** A script that answers a query: Message.new, set_reply, an answer, set_edns0 *)
Definition far0 (_ : N) (_ : num) : N := 0%N.
Definition step0 := step far0 (fun _ => None) (fun _ => ""%string) (fun _ => ""%string) (fun _ => None).
Definition request : gmsg := GMsg 4711 false 0 false false true false false true 0 0 [] [] [].
Definition a_type : list ftype := [FHdr; FPlain "A" KIP].
Definition start : store := Store [request] [[Q "example.com." 1 1]] [RR (Hdr "example.com." 1 1 300 0) a_type [VHdr; VIP None]].
Example C74_start_ok : store_ok start.
Proof.
  constructor.
  - repeat constructor; cbn; discriminate.
  - repeat constructor.
  - repeat constructor. intros [].
  - constructor; [|constructor]. split; [|split; [left; repeat constructor|repeat split]].
    left. split; [repeat constructor|]. split; [repeat constructor; intros []|]. cbn. intros n [<-|[]] H. repeat (destruct H as [H|H]; [discriminate|]). contradiction.
Qed.
Definition after (os : list op) : store := fold_left (fun h o => fst (step0 h o)) os start.
Definition answering : list op :=
  [ONew; OReply 1 0; OSet 1 "answer" (LTab [LUser (RRecord 0)]); OSet 1 "recursion_available" (LBool true); OEdns 1 (LNum (Fin 1232 0)) (LBool true)].
Example C74_answer :
  map (part_of (after answering) 1) [PId; PResponse; PRcode; PRecursionDesired; PRecursionAvailable; PCheckingDisabled; PQuestions; PAnswer; PExtra] =
  map Some [PNum 4711; PBit true; PNum 0; PBit true; PBit true; PBit true; PQs [Q "example.com." 1 1]; PRecs [0]; PRecs [1]].
Proof. reflexivity. Qed.
Example C74_answer_request : map (part_of (after answering) 0) [PId; PResponse; PQuestions; PAnswer] = map (part_of start 0) [PId; PResponse; PQuestions; PAnswer].
Proof. reflexivity. Qed.
Example C74_answer_edns : isEdns0 (after answering) 1 = LUser (RRecord 1) /\ isEdns0 (after answering) 0 = LNil.
Proof. split; reflexivity. Qed.
(** The question of the reply is its own: writing to it leaves the request. *)
Example C74_own_question :
  getMsg (after answering) 1 "questions" = Some (LTab [LUser (RQuestion 2 0)]) /\
  let h := after (answering ++ [OQSet 2 0 "name" (LStr "example.net.")]) in
  part_of h 1 PQuestions = Some (PQs [Q "example.net." 1 1]) /\ part_of h 0 PQuestions = Some (PQs [Q "example.com." 1 1]).
Proof. repeat split. Qed.
(** Handles of questions go stale when questions are assigned. *)
Example C74_stale :
  let h := after [OSet 0 "questions" (LTab [LUser (RQuestion 0 0)]); OQSet 0 0 "name" (LStr "example.net.")] in
  part_of h 0 PQuestions = Some (PQs [Q "example.com." 1 1]) /\ question_at h 0 0 = Some (Q "example.net." 1 1).
Proof. split; reflexivity. Qed.
(** Errors: an unknown name, a value of another type, a record among questions *)
Example C74_errors_shown :
  map (fun o => snd (step0 start o)) [OSet 0 "truncated" (LBool true); OSet 0 "id" (LStr "1"); OSet 0 "questions" (LTab [LUser (RQuestion 0 0); LUser (RRecord 0)]); OGet 0 "opcode"] = [None; None; None; None].
Proof. reflexivity. Qed.
(** Identifiers wrap around. *)
Example C74_id_wraps : part_of (after [OSet 0 "id" (LNum (Fin (-1) 0))]) 0 PId = Some (PNum 65535).
Proof. reflexivity. Qed.
(** The script as a run in the sense of C74_script *)
Example C74_run : exists h k, script step0 start [RMsg 0; RRecord 0] h k /\ In (RRecord 1) k /\ h = after (answering ++ [OIsEdns 1]).
Proof.
  eexists _, _. split; [|split; [|reflexivity]].
  - eapply (script_step _ _ _ ONew); [exact I|reflexivity|]. eapply (script_step _ _ _ (OReply 1 0)); [split; cbn; tauto|reflexivity|].
    eapply (script_step _ _ _ (OSet 1 "answer" (LTab [LUser (RRecord 0)]))); [split; [cbn; tauto|intros r [<-|[]]; cbn; tauto]|reflexivity|].
    eapply (script_step _ _ _ (OSet 1 "recursion_available" (LBool true))); [split; [cbn; tauto|intros r []]|reflexivity|].
    eapply (script_step _ _ _ (OEdns 1 (LNum (Fin 1232 0)) (LBool true))); [cbn; tauto|reflexivity|].
    eapply (script_step _ _ _ (OIsEdns 1)); [cbn; tauto|reflexivity|]. apply script_done.
  - cbn. tauto.
Qed.
(** Fields of an OPT record are independent of each other. *)
Example C74_opt_fields :
  let h := after (answering ++ [OOptSet 1 "version" (LNum (Fin 7 0)); OOptSet 1 "extended_rcode" (LNum (Fin 48 0)); OOptSet 1 "udp_size" (LNum (Fin 512 0)); OOptSet 1 "do_bit" (LBool false)]) in
  map (fun n => snd (step0 h (OOptGet 1 n))) ["udp_size"; "do_bit"; "version"; "extended_rcode"]%string =
  map Some [LNum (Fin 512 0); LBool false; LNum (Fin 7 0); LNum (Fin 48 0)].
Proof. reflexivity. Qed.
