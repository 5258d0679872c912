(** C68: the Lua element. *)
From Coq Require Import Permutation.
From Verif Require Import Base Bytes Dns Lua_model Lua_spec Lua_proofs.
Local Open Scope nat_scope.

(** A script that fails gives an error and no answer, and leaves its stack as it was. *)
Theorem C68_error state exec size (s : script state) q ci st e : length (sc_stack _ s) + 3 <= size -> exec (sc_state _ s) q ci = (st, inl e) ->
  resolve state exec size s q ci = Some (Script _ st (sc_stack _ s), (None, Some e)).
Proof. exact (resolve_error state exec size s q ci st e). Qed.
Print Assumptions C68_error.

(** What the values of a script mean, whatever their types; and what stays on the stack. *)
Theorem C68_values state exec size (s : script state) q ci st v1 v2 : length (sc_stack _ s) + 3 <= size -> exec (sc_state _ s) q ci = (st, inr (v1, v2)) ->
  exists stack r, resolve state exec size s q ci = Some (Script _ st stack, r) /\ verdict v1 v2 r /\
    (supported v2 -> stack = sc_stack _ s) /\ (v2 = LOther -> stack = v1 :: sc_stack _ s).
Proof. exact (resolve_values state exec size s q ci st v1 v2). Qed.
Print Assumptions C68_values.

(** A script whose second value is always nil, user data or a string answers any number of queries. *)
Theorem C68_total state exec size (s : script state) l : length (sc_stack _ s) + 3 <= size ->
  (forall st q ci st' v1 v2, exec st q ci = (st', inr (v1, v2)) -> supported v2) ->
  exists st rs, resolves state exec size s l = Some (Script _ st (sc_stack _ s), rs) /\ length rs = length l.
Proof. exact (resolves_total state exec size l s). Qed.
Print Assumptions C68_total.

(** "Any script answers any number of queries" fails: one whose second value is a number panics at last, whatever the size of the stack. *)
Theorem C68_leak_refuted size q ci : exists l,
  resolves unit (fun _ _ _ => (tt, inr (LNil, LOther))) size (Script _ tt []) l = None /\ Forall (fun x => x = (q, ci)) l.
Proof. exact (leak size q ci). Qed.
Print Assumptions C68_leak_refuted.

(** A script that does nothing but call a resolver, "return Resolvers[1]:resolve(msg, ci)", is transparent. *)
Theorem C68_passthrough size (up : msg -> client -> lresult) (s : script unit) q ci : length (sc_stack _ s) + 3 <= size ->
  resolve unit (fun st q ci => (st, inr (resolverResolve up q ci))) size s q ci = Some (s, up q ci).
Proof. exact (passthrough size up s q ci). Qed.
Print Assumptions C68_passthrough.

(** No two queries use a script at the same time, and no script in use is in the pool or closed. *)
Theorem C68_exclusive o n l p : pool_size o n -> pruns (newPool o) l = Some p ->
  NoDup (map snd (p_used p)) /\ (forall s, In s (map snd (p_used p)) -> ~ In s (p_idle p) /\ ~ In s (p_shut p) /\ s < n) /\
  length (p_used p) <= n.
Proof. exact (sized_exclusive o n l p). Qed.
Print Assumptions C68_exclusive.

(** A query waits only if all scripts are in use. *)
Theorem C68_waits o n l p r : pool_size o n -> pruns (newPool o) l = Some p -> p_closed p = false -> (pstep p (Take r) = None <-> length (p_used p) = n).
Proof. exact (sized_waits o n l p r). Qed.
Print Assumptions C68_waits.

(** A query that ends never waits to give its script back, and gives back the script it had. *)
Theorem C68_returns o l p r s : pruns (newPool o) l = Some p -> p_closed p = false -> In (r, s) (p_used p) ->
  exists p', pstep p (Give r) = Some p' /\ p_panic p' = false /\ p_idle p' = p_idle p ++ [s] /\ ~ In r (map fst (p_used p')) /\
    (forall r' s', r' <> r -> In (r', s') (p_used p') <-> In (r', s') (p_used p)).
Proof. exact (pool_returns o l p r s). Qed.
Print Assumptions C68_returns.

(** Closing while no query is in progress closes every script. *)
Theorem C68_close o n l p : pool_size o n -> pruns (newPool o) l = Some p -> p_closed p = false -> p_used p = [] ->
  exists p', pstep p Close = Some p' /\ p_panic p' = false /\ Permutation (p_shut p') (seq 0 n).
Proof. exact (sized_close o n l p). Qed.
Print Assumptions C68_close.

(** "Closing is always safe" fails: a query in progress panics. *)
Theorem C68_close_refuted o : exists l p, pruns (newPool o) l = Some p /\ p_panic p = true.
Proof. exact (pool_close o). Qed.
Print Assumptions C68_close_refuted.

(** In the sandbox a script is loaded with the globals of five libraries, without those that load code. *)
Theorem C68_sandbox provides all_libs n : In n (chunk_globals provides all_libs true) <->
  (In n (provides BaseLib) \/ In n (provides TabLib) \/ In n (provides StringLib) \/ In n (provides MathLib) \/ In n (provides CoroutineLib)) /\
  ~ In n ["dofile"; "loadfile"; "load"; "loadstring"; "module"; "require"]%string.
Proof. exact (sandbox_ok provides n). Qed.
Print Assumptions C68_sandbox.

Definition C68_ci := Client [] "" "" "".
Example C68_ex_answer : option_map snd (resolve unit (fun _ q _ => (tt, inr (LUser (UMsg q), LNil))) 20 (Script _ tt []) empty_msg C68_ci) = Some (Some empty_msg, None).
Proof. reflexivity. Qed.
Example C68_ex_bad : option_map snd (resolve unit (fun _ q _ => (tt, inr (LStr "x", LNil))) 20 (Script _ tt []) empty_msg C68_ci) = Some (None, Some "invalid return value, expected Message"%string).
Proof. reflexivity. Qed.
Example C68_ex_pool : option_map p_used (pruns (newPool 2) [Take 7; Take 8; Give 7; Take 9]) = Some [(9, 0); (8, 1)].
Proof. reflexivity. Qed.
Example C68_ex_waits : pruns (newPool 2) [Take 7; Take 8; Take 9] = None.
Proof. reflexivity. Qed.
Example C68_ex_sandbox : openSandboxedLibs (fun l => match l with BaseLib => ["print"; "load"] | OtherLib _ => ["os"] | _ => [] end)%string = ["print"%string].
Proof. reflexivity. Qed.
Example C68_ex_sizes : pool_size 0 4 /\ pool_size 2 2.
Proof. split; split; congruence. Qed.
