(** C75: EDNS0 options, constants, client information and errors in Lua scripts. *)
From Verif Require Import Base Bytes Net LuaVal_model LuaRR_model LuaRR_spec LuaMsg_model LuaMsg_spec LuaMsg_proofs4 LuaEdns_model LuaEdns_spec LuaEdns_proofs LuaEdns_proofs2 LuaEdns_proofs3.
From Coq Require Import Permutation.
Local Open Scope nat_scope.

(** Options read from a record behave as what they are; the types have their documented names. *)
Theorem C75_metatable : forall e, metatable e = Some (kind_of e).
Proof. exact (fun e => proj1 (has_metatable e)). Qed.
Print Assumptions C75_metatable.
Theorem C75_types : forall k, exists n, In (k, n) type_names /\ find_field n registered = Some k /\ forall m, In (k, m) type_names -> m = n.
Proof. exact type_named. Qed.
Print Assumptions C75_types.

(** Every documented field gives what the option holds, "option" its code; every other name is an error. *)
Theorem C75_read : forall ipString e name, edns_ok e ->
  match getOption ipString e name with
  | Some v => (name = "option"%string /\ exists x n, v = LNum x /\ denotes x (Z.of_N n) /\ has_code e n) \/ exists w, In (name, w) (content e) /\ oshows ipString w v
  | None => name <> "option"%string /\ ~ In name (map fst (content e))
  end.
Proof. exact read. Qed.
Print Assumptions C75_read.
Theorem C75_names : forall e, NoDup ("option"%string :: map fst (content e)).
Proof. exact names. Qed.
Print Assumptions C75_names.

(** An assignment changes that field to the value, and nothing else of the option. *)
Theorem C75_write : forall far parseNumber numberText parseIP e name v e', setOption far parseNumber numberText parseIP e name v = Some e' ->
  exists l1 old new l2, content e = l1 ++ (name, old) :: l2 /\ content e' = l1 ++ (name, new) :: l2 /\ otakes parseNumber numberText parseIP old v new /\ kind_of e' = kind_of e /\ hidden e' = hidden e.
Proof. exact write. Qed.
Print Assumptions C75_write.
(** The assignments that succeed *)
Theorem C75_accepts : forall far parseNumber numberText parseIP e name v,
  (exists e', setOption far parseNumber numberText parseIP e name v = Some e') <-> exists old, In (name, old) (content e) /\ oaccepts parseNumber numberText parseIP old v.
Proof. exact accepts. Qed.
Print Assumptions C75_accepts.
(** The functions of one type do not work on options of another. *)
Theorem C75_other_type : forall far parseNumber numberText parseIP ipString mt e name v, mt <> kind_of e ->
  index ipString mt e name = None /\ newindex far parseNumber numberText parseIP mt e name v = None.
Proof. exact other_type. Qed.
Print Assumptions C75_other_type.

(** The new functions: the arguments in the order of the fields, zero for those that are missing *)
Theorem C75_new : forall far parseNumber numberText parseIP k args e, newOption far parseNumber numberText parseIP k args = Some e ->
  kind_of e = k /\ (forall i name w, nth_error (content e) i = Some (name, w) -> made parseNumber numberText parseIP args i w) /\ (k = KEXPIRE -> hidden e = Some (inl false)).
Proof. exact new_is. Qed.
Print Assumptions C75_new.
Theorem C75_new_accepts : forall far parseNumber numberText parseIP k args,
  (exists e, newOption far parseNumber numberText parseIP k args = Some e) <->
  forall i p v, nth_error (params k) i = Some p -> nth_error args i = Some v -> oaccepts parseNumber numberText parseIP p v.
Proof. exact new_accepts. Qed.
Print Assumptions C75_new_accepts.
Theorem C75_new_ok : forall far parseNumber numberText parseIP k args e, newOption far parseNumber numberText parseIP k args = Some e -> edns_ok e.
Proof. exact new_ok. Qed.
Print Assumptions C75_new_ok.

(** What is written is read back. *)
Theorem C75_back : forall far parseNumber numberText parseIP ipString e name v old, edns_ok e -> In (name, old) (content e) -> oexact ipString parseIP old v ->
  exists e' v', setOption far parseNumber numberText parseIP e name v = Some e' /\ getOption ipString e' name = Some v' /\ alike v v'.
Proof. exact back. Qed.
Print Assumptions C75_back.
(** Writing back what was read changes nothing. *)
Theorem C75_self : forall far parseNumber numberText parseIP ipString e name w, ip_text ipString parseIP -> edns_ok e -> In (name, w) (content e) -> keeps w ->
  exists v e' l1 w' l2, getOption ipString e name = Some v /\ setOption far parseNumber numberText parseIP e name v = Some e' /\ content e = l1 ++ (name, w) :: l2 /\
    content e' = l1 ++ (name, w') :: l2 /\ same_oval w w' /\ kind_of e' = kind_of e /\ hidden e' = hidden e.
Proof. exact self. Qed.
Print Assumptions C75_self.
(** Not so for numbers beyond 2^53 *)
Theorem C75_id_refuted : ~ forall far parseNumber numberText parseIP ipString e name w v e', edns_ok e -> In (name, w) (content e) -> getOption ipString e name = Some v ->
  setOption far parseNumber numberText parseIP e name v = Some e' -> e' = e.
Proof. exact id_refuted. Qed.
Print Assumptions C75_id_refuted.
(** An EXPIRE option that came without a value remains marked as empty when a value is assigned. *)
Theorem C75_expire_refuted : ~ forall far parseNumber numberText parseIP e v e', setOption far parseNumber numberText parseIP e "expire" v = Some e' -> hidden e' = Some (inl false).
Proof. exact expire_refuted. Qed.
Print Assumptions C75_expire_refuted.
(** The family of a SUBNET option does not follow the address. *)
Theorem C75_family_refuted : ~ forall far parseNumber numberText parseIP e v e' f ip, setOption far parseNumber numberText parseIP e "address" v = Some e' ->
  In ("family"%string, ONum 16 f) (content e') -> In ("address"%string, OAddr ip) (content e') -> length ip = 4 -> f = 1%N.
Proof. exact family_refuted. Qed.
Print Assumptions C75_family_refuted.

(** Whatever a script does with messages, records and options: all stay well formed, nothing that it holds dangles, options keep their types. *)
Theorem C75_script : forall far parseNumber numberText ipString parseIP typeToRR s known s' known', (forall n t, typeToRR n = Some t -> type_ok t) ->
  escript (estep far parseNumber numberText ipString parseIP typeToRR) s known s' known' -> state_ok s -> Forall (reaches s) known ->
  state_ok s' /\ Forall (reaches s') known' /\ (forall r, reaches s r -> reaches s' r) /\
  forall a e, nth_error (snd s) a = Some e -> exists e', nth_error (snd s') a = Some e' /\ kind_of e' = kind_of e /\ hidden e' = hidden e.
Proof. exact escript_ok. Qed.
Print Assumptions C75_script.
(** An operation that is an error changes nothing. *)
Theorem C75_errors : forall far parseNumber numberText ipString parseIP typeToRR s known o s', (forall n t, typeToRR n = Some t -> type_ok t) -> state_ok s -> Forall (reaches s) known ->
  epossible known o -> estep far parseNumber numberText ipString parseIP typeToRR s o = (s', None) -> s' = s.
Proof. exact errors. Qed.
Print Assumptions C75_errors.
(** Options change by assignments to them alone, and those change nothing else. *)
Theorem C75_apart : forall far parseNumber numberText ipString parseIP typeToRR s o s' res, estep far parseNumber numberText ipString parseIP typeToRR s o = (s', res) ->
  match o with
  | EBase _ | ERecord _ => snd s' = snd s
  | EGet _ _ _ => s' = s
  | ENew _ _ => fst s' = fst s /\ exists l, snd s' = snd s ++ l
  | ESet _ a _ _ => fst s' = fst s /\ forall b, b <> a -> nth_error (snd s') b = nth_error (snd s) b
  end.
Proof. exact apart. Qed.
Print Assumptions C75_apart.
(** An assignment shows in every OPT record that has the option. *)
Theorem C75_through : forall far parseNumber numberText ipString parseIP typeToRR s i r view j a e mt name v s',
  state_ok s -> nth_error (records (fst s)) i = Some r -> opt_is r view -> nth_error (ov_options view) j = Some a -> nth_error (snd s) a = Some e ->
  estep far parseNumber numberText ipString parseIP typeToRR s (ESet mt a name v) = (s', Some LNil) ->
  exists l e' w, estep far parseNumber numberText ipString parseIP typeToRR s' (EBase (OOptGet i "option")) = (s', Some (LTab l)) /\ nth_error l j = Some (LUser (ROption a)) /\ mt = kind_of e /\
    In (name, w) (content e') /\ (exists old, In (name, old) (content e) /\ otakes parseNumber numberText parseIP old v w) /\
    exists lv, estep far parseNumber numberText ipString parseIP typeToRR s' (EGet mt a name) = (s', Some lv) /\ oshows ipString w lv.
Proof. exact through. Qed.
Print Assumptions C75_through.

(** The constants have their numbers, in whatever order the tables are gone through. *)
Theorem C75_constants : forall version types classes rcodes options g, Permutation options optionCodes -> NoDup (map snd types) -> NoDup (map snd classes) -> NoDup (map snd rcodes) ->
  Forall (fun x => fst x < 2 ^ 16)%N (types ++ classes ++ rcodes) ->
  let g' := RegisterConstants version types classes rcodes options g in
  (forall n s, In (n, s) types -> is_number (value_of g' ("Type" ++ s)) n) /\ (forall n s, In (n, s) classes -> is_number (value_of g' ("Class" ++ s)) n) /\
  (forall n s, In (n, s) rcodes -> is_number (value_of g' ("Rcode" ++ s)) n) /\ (forall n s, In (n, s) optionCodes -> is_number (value_of g' s) n) /\
  value_of g' "BuildVersion" = Some (LStr version) /\
  forall name, name <> "BuildVersion"%string -> (forall p s, In p ["Type"; "Class"; "Rcode"; "EDNS0"]%string -> name <> (p ++ s)%string) -> value_of g' name = value_of g name.
Proof. exact constants. Qed.
Print Assumptions C75_constants.
(** Those of the options are the codes that the options have. *)
Theorem C75_codes : forall k n, assigned_code k = Some n -> exists s, In (k, s) code_names /\ In (n, s) optionCodes.
Proof. exact codes. Qed.
Print Assumptions C75_codes.

(** Client information: the documented names, and no others *)
Theorem C75_client : forall ipString c name v, getClient ipString c name = Some v <-> In (name, v) (client_fields ipString c).
Proof. exact client_get. Qed.
Print Assumptions C75_client.
(** An error has the text it was made with. *)
Theorem C75_error : forall numberText v, match newError numberText v with Some s => text_of numberText v s /\ errorText s = LStr s | None => forall s, ~ text_of numberText v s end.
Proof. exact error_text. Qed.
Print Assumptions C75_error.

(** ** Cases *)
Definition no_far (_ : N) (_ : num) : N := 0%N.
Definition parse1 (s : string) : option bytes := if String.eqb s "192.0.2.0" then Some [192; 0; 2; 0]%N else None.
Definition print1 (ip : bytes) : string := if list_eq_dec N.eq_dec ip [192; 0; 2; 0]%N then "192.0.2.0" else "<nil>".
Definition step1 := estep no_far (fun _ => None) (fun _ => ""%string) print1 parse1 (fun n => if N.eqb n 41 then Some optType else None).
Definition run (ops : list eop) (s : store * list edns) := fold_left (fun s o => fst (step1 s o)) ops s.
Definition empty : store * list edns := (Store [] [] [], []).
(** A script that puts a client subnet into an OPT record and then changes it *)
Definition subnetting : list eop :=
  [ENew KSUBNET [LNum (Fin 1 0); LNum (Fin 24 0); LNum (Fin 0 0); LStr "192.0.2.0"]; EBase (OOptNew [LNum (Fin 1232 0)]);
   EBase (OOptSet 0 "option" (LTab [LUser (ROption 0)])); ESet KSUBNET 0 "sourcenetmask" (LNum (Fin 16 0))].
Example C75_ex_subnet : snd (run subnetting empty) = [SUBNET 1 16 0 [192; 0; 2; 0]%N] /\
  snd (step1 (run subnetting empty) (EBase (OOptGet 0 "option"))) = Some (LTab [LUser (ROption 0)]) /\
  map (fun n => snd (step1 (run subnetting empty) (EGet KSUBNET 0 n))) ["option"; "family"; "sourcenetmask"; "sourcescope"; "address"; "mask"]%string =
  [Some (LNum (Fin 8 0)); Some (LNum (Fin 1 0)); Some (LNum (Fin 16 0)); Some (LNum (Fin 0 0)); Some (LStr "192.0.2.0"); None].
Proof. vm_compute. repeat split. Qed.
Example C75_ex_state : state_ok (run subnetting empty) /\ nth_error (records (fst (run subnetting empty))) 0 = Some (RR (Hdr "." 41 1232 0 0) optType [VHdr; VEdns [0]]) /\
  opt_is (RR (Hdr "." 41 1232 0 0) optType [VHdr; VEdns [0]]) (View 1232 0 0 false 0 [0]).
Proof.
  split; [|split; [reflexivity|repeat split]]. constructor; [|repeat constructor|repeat constructor]. constructor; [constructor|constructor|constructor|].
  constructor; [|constructor]. apply (LuaMsg_proofs3.opt_ok _ (View 1232 0 0 false 0 [0])); repeat split.
Qed.
Example C75_ex_record : snd (step1 (run subnetting empty) (ERecord [(LStr "rtype", LNum (Fin 41 0)); (LStr "name", LStr "."); (LStr "option", LTab [LUser (ROption 0)])])) = Some (LUser (RRecord 1)).
Proof. reflexivity. Qed.
(** The script as a run in the sense of C75_script *)
Example C75_ex_run : exists s k, escript step1 empty [] s k /\ s = run subnetting empty /\ k = [ROption 0; RRecord 0].
Proof.
  eexists _, _. split; [|split; reflexivity].
  eapply (escript_step _ _ _ (ENew KSUBNET [LNum (Fin 1 0); LNum (Fin 24 0); LNum (Fin 0 0); LStr "192.0.2.0"])); [exact I|reflexivity|]. eapply (escript_step _ _ _ (EBase (OOptNew [LNum (Fin 1232 0)]))); [exact I|reflexivity|].
  eapply (escript_step _ _ _ (EBase (OOptSet 0 "option" (LTab [LUser (ROption 0)])))); [split; [cbn; tauto|intros r [<-|[]]; cbn; tauto]|reflexivity|].
  eapply (escript_step _ _ _ (ESet KSUBNET 0 "sourcenetmask" (LNum (Fin 16 0)))); [cbn; tauto|reflexivity|]. apply escript_done.
Qed.
(** Errors: too few or wrong arguments are not the same. *)
Example C75_ex_new : map (fun args => option_map content (newOption no_far (fun _ => None) (fun _ => ""%string) parse1 KEDE args)) [[]; [LNum (Fin 15 0)]; [LNum (Fin 15 0); LStr "blocked"]; [LBool true]] =
  [Some [("infocode", ONum 16 0); ("extratext", OText "")]; Some [("infocode", ONum 16 15); ("extratext", OText "")]; Some [("infocode", ONum 16 15); ("extratext", OText "blocked")]; None]%string.
Proof. reflexivity. Qed.
Example C75_ex_errors : map (fun o => snd (step1 (run subnetting empty) o)) [ESet KSUBNET 0 "address" (LStr "nowhere"); ESet KSUBNET 0 "option" (LNum (Fin 9 0)); ESet KCOOKIE 0 "family" (LNum (Fin 2 0)); EGet KSUBNET 0 "cookie"] = [None; None; None; None].
Proof. reflexivity. Qed.
Example C75_ex_constants : let g := RegisterConstants "v1" [(1, "A"); (28, "AAAA")]%N%string [(1, "INET")]%N%string [(3, "NXDOMAIN")]%N%string (rev optionCodes) [("Resolve", LFun)]%string in
  map (value_of g) ["TypeAAAA"; "ClassINET"; "RcodeNXDOMAIN"; "EDNS0SUBNET"; "BuildVersion"; "Resolve"; "TypeX"]%string =
  [Some (LNum (Fin 28 0)); Some (LNum (Fin 1 0)); Some (LNum (Fin 3 0)); Some (LNum (Fin 8 0)); Some (LStr "v1"); Some LFun; None].
Proof. reflexivity. Qed.
Example C75_ex_client : let c := ClientInfo [192; 0; 2; 0]%N "/dns-query" "dns.example" "doh" "doh" ":443" in
  getClient print1 c "source_ip" = Some (LStr "192.0.2.0") /\ getClient print1 c "listener" = Some (LStr "doh") /\ getClient print1 c "port" = None.
Proof. repeat split. Qed.
