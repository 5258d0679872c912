(** C92: the program as a whole: which configurations start, and what then runs. [begin] is start (cmd/routedns/main.go) from the decoded
    configuration to the listeners; the parts are those of C26, C87, C88, C89, C90 and C91. [ord], [es] and the lists of the configuration:
    the orders of maps, which are any orders. *)
From Verif Require Import Base Bytes Dns Net Cidr_spec Net_spec Router_spec.
From Verif Require ListCfg_model ModCfg_model CacheCfg_model ResCfg_model ResCfg_spec LCfg_model LCfg_spec Router_model.
From Verif Require Import Config_model Start_model Start_spec Start_proofs5 Start_proofs6 Start_demo.
From Coq Require Import Relations.
Local Open Scope string_scope.

(** The program starts exactly if the configuration is acceptable: names are unique and known, nothing goes round in a circle, and the settings of all
    elements and listeners are all right. *)
Theorem C92_starts CA Cert Key (w : world CA Cert Key) ord rnd p es : parse_ok (w_addr w) -> ~ In "" (names p) -> any_order ord -> edges p es ->
  (exists m ls oc, begin CA Cert Key w ord rnd p es = Started CA Cert Key m ls oc) <-> acceptable w p rnd.
Proof. exact (starts_iff w ord rnd p es). Qed.
Print Assumptions C92_starts.
(** It never goes on for ever: otherwise there is an error. *)
Theorem C92_ends CA Cert Key (w : world CA Cert Key) ord rnd p es : parse_ok (w_addr w) -> ~ In "" (names p) -> any_order ord -> edges p es ->
  begin CA Cert Key w ord rnd p es = Error CA Cert Key \/ exists m ls oc, begin CA Cert Key w ord rnd p es = Started CA Cert Key m ls oc.
Proof. exact (ends w ord rnd p es). Qed.
Print Assumptions C92_ends.

(** Every element is made from its own settings and from the elements that these name; there is none besides those of the configuration and
    the bootstrap resolver. *)
Theorem C92_elements CA Cert Key (w : world CA Cert Key) ord rnd p es : parse_ok (w_addr w) -> ~ In "" (names p) -> any_order ord -> edges p es ->
  forall m ls oc, begin CA Cert Key w ord rnd p es = Started CA Cert Key m ls oc -> exists b, booted w p b /\
  (forall id r, In (id, r) (p_resolvers p) -> made_resolver w (fun n => get n m) b id r) /\ (forall id g, In (id, g) (p_groups p) -> made_group w (fun n => get n m) id g) /\
  (forall id l, In (id, l) (p_routers p) -> made_router w (fun n => get n m) id l) /\ (forall n, get n m <> None <-> In n (served_names p)) /\
  (~ In "bootstrap-resolver" (names p) -> get "bootstrap-resolver" m = option_map (NResolver CA Cert "bootstrap-resolver") b).
Proof. exact (consists w ord rnd p es). Qed.
Print Assumptions C92_elements.

(** Every listener is that of its settings (C91), with the element that they name. *)
Theorem C92_listeners CA Cert Key (w : world CA Cert Key) ord rnd p es : parse_ok (w_addr w) -> ~ In "" (names p) -> any_order ord -> edges p es ->
  forall m ls oc, begin CA Cert Key w ord rnd p es = Started CA Cert Key m ls oc ->
  Forall2 (fun l q => LCfg_spec.started (lworld CA Cert Key w (node CA Cert) (fun n => get n m)) (fst l) (snd l) (rnd (fst l)) q) (p_listeners p) ls.
Proof. exact (listening w ord rnd p es). Qed.
Print Assumptions C92_listeners.

(** A query in a router goes to the element that is named in the first route of the configuration that takes it, and to no other. *)
Theorem C92_routed CA Cert Key (w : world CA Cert Key) ord rnd p es : parse_ok (w_addr w) -> ~ In "" (names p) -> any_order ord -> edges p es ->
  forall m ls oc id l, begin CA Cert Key w ord rnd p es = Started CA Cert Key m ls oc -> In (id, l) (p_routers p) ->
  exists rs to, get id m = Some (NRouter CA Cert id rs to) /\ forall answer now q ci x more,
  m_question q = x :: more -> ci_ip ci = [] \/ ip_ok (ci_ip ci) -> (forall y, subnet_addr q y -> y = [] \/ ip_ok y) -> (forall i, 0 <= Router_model.lt_minute (now i) <= 59)%Z ->
  (exists i t y, nth_error l i = Some t /\ taken w now q ci x i t /\ (forall j t', (j < i)%nat -> nth_error l j = Some t' -> ~ taken w now q ci x j t') /\
     get (t_resolver t) m = Some y /\ nth_error to i = Some y /\
     Router_model.router_resolve (fun i => match nth_error to i with Some y => answer y | None => fun _ _ => Err "" end) now rs q ci = Some ([(i, q)], answer y q ci)) \/
  ((forall j t', nth_error l j = Some t' -> ~ taken w now q ci x j t') /\ exists s,
     Router_model.router_resolve (fun i => match nth_error to i with Some y => answer y | None => fun _ _ => Err "" end) now rs q ci = Some ([], Err s)).
Proof. exact (routes_run w ord rnd p es). Qed.
Print Assumptions C92_routed.

(** Whatever happens, a query only gets to elements that the configuration leads to: from one element to those that its settings name. *)
Theorem C92_confined CA Cert Key (w : world CA Cert Key) ord rnd p es : parse_ok (w_addr w) -> ~ In "" (names p) -> any_order ord -> edges p es ->
  forall m ls oc a x y, begin CA Cert Key w ord rnd p es = Started CA Cert Key m ls oc -> get a m = Some x ->
  clos_refl_trans _ (fun u v => exists q ci, asks w (fun n => get n m) q ci u v) x y -> exists n, get n m = Some y /\ clos_refl_trans _ (uses p) a n.
Proof. exact (confined w ord rnd p es). Qed.
Print Assumptions C92_confined.
Theorem C92_held CA Cert Key (w : world CA Cert Key) ord rnd p es : parse_ok (w_addr w) -> ~ In "" (names p) -> any_order ord -> edges p es ->
  forall m ls oc a x y, begin CA Cert Key w ord rnd p es = Started CA Cert Key m ls oc -> get a m = Some x -> In y (holds x) -> exists n, uses p a n /\ get n m = Some y.
Proof. exact (held w ord rnd p es). Qed.
Print Assumptions C92_held.

(** The orders of maps do not matter. *)
Theorem C92_same CA Cert Key (w : world CA Cert Key) ord ord' rnd p p' es es' : parse_ok (w_addr w) -> ~ In "" (names p) -> any_order ord -> any_order ord' -> shuffled p p' -> edges p es -> edges p' es' ->
  match begin CA Cert Key w ord rnd p es, begin CA Cert Key w ord' rnd p' es' with
  | Error _ _ _, Error _ _ _ => True
  | Started _ _ _ m ls oc, Started _ _ _ m' ls' oc' => (forall n, get n m = get n m') /\ Permutation ls ls' /\ Permutation oc oc'
  | _, _ => False
  end.
Proof. exact (same_result w ord ord' rnd p p' es es'). Qed.
Print Assumptions C92_same.

(** When the program ends, every cache with a backend of type memory is closed, once, and nothing else. *)
Theorem C92_closes CA Cert Key (w : world CA Cert Key) ord rnd p es : parse_ok (w_addr w) -> ~ In "" (names p) -> any_order ord -> edges p es ->
  forall m ls oc, begin CA Cert Key w ord rnd p es = Started CA Cert Key m ls oc -> NoDup oc /\ forall id, In id oc <-> kept_on_disk p id.
Proof. exact (closed w ord rnd p es). Qed.
Print Assumptions C92_closes.

(** The command: the configuration that runs is that of the files, one after the other. *)
Theorem C92_command CA Cert Key (w : world CA Cert Key) logLevel version args :
  (forall p, start CA Cert Key w logLevel version args = Runs p <-> (logLevel <= 6)%N /\ version = false /\ args <> [] /\ exists t, texts w args t /\ w_toml w t = Some p) /\
  (start CA Cert Key w logLevel version args = Version <-> (logLevel <= 6)%N /\ version = true) /\ (forall a u k, start CA Cert Key w logLevel version args <> RunsFDServer a u k).
Proof. exact (start_spec w logLevel version args). Qed.
Print Assumptions C92_command.
(** fd-server: the mode is what the octal digits say, at most 0777, or 0 without --mode. *)
Theorem C92_mode logLevel mode unrestricted path m : runFDServer logLevel mode unrestricted path = RunsFDServer path unrestricted m <->
  (logLevel <= 6)%N /\ ((mode = "" /\ m = 0%N) \/ (octal_text mode m /\ (m <= 511)%N)).
Proof. exact (mode_spec logLevel mode unrestricted path m). Qed.
Print Assumptions C92_mode.
(** That a mode that is asked for is set is not true of mode 0, which is the same as none (xsocketserver_linux.go:114). *)
Theorem C92_mode_refuted : exists mode, octal_text mode 0 /\ forall logLevel unrestricted path, runFDServer logLevel mode unrestricted path = runFDServer logLevel "" unrestricted path.
Proof. exact mode_unset. Qed.
Print Assumptions C92_mode_refuted.

(** *** Examples *)
Example C92_ex_hyps : parse_ok (w_addr S_w) /\ ~ In "" (names S_good) /\ any_order (fun _ l => rev l) /\ edges S_good (S_edges S_good).
Proof.
  split; [exact S_parse|]. split; [cbn; intuition discriminate|]. split; [intros n l; apply Permutation_sym, Permutation_rev|]. apply Permutation_refl.
Qed.
(** The elements, the caches to close, the number of listeners; wrong configurations: an unknown name, a circle, a name twice, a retry resolver that is missing, a list that is not one *)
Example C92_ex_run : S_run S_good = Some (["router"; "block"; "cache"; "up"; "other"; "bootstrap-resolver"], ["cache"], 2%nat) /\
  S_run (S_p [("cache", S_cache None ["down"])] [] []) = None /\ S_run (S_p [("a", S_cache None ["b"]); ("b", S_cache None ["a"])] [] []) = None /\
  S_run (S_p [("up", S_cache None ["other"])] [] []) = None /\ S_run (S_p [("a", Group "truncate-retry" (S_lists [] "") (S_mods ["up"] "" "") (S_caches None))] [] []) = None /\
  S_run (S_p [("a", S_cache (Some S_memory) ["bootstrap-resolver"])] [] []) = None /\ S_run (S_p [("a", S_cache None ["up"; "other"])] [] []) = None /\
  S_run (S_p [] [("r", [S_route "XY" "up"])] []) = None /\ S_run (S_p [] [] [S_listener "udp" "none"]) = None /\ S_run (S_p [] [] [S_listener "abc" "up"]) = None.
Proof. repeat split; vm_compute; reflexivity. Qed.
Example C92_ex_held : map (S_held S_good) ["router"; "block"; "cache"; "up"] = [Some ["up"; "block"]; Some ["cache"; "other"]; Some ["up"]; Some []].
Proof. vm_compute. reflexivity. Qed.
Example C92_ex_acceptable : acceptable S_w S_good (fun _ => Some [1]%N).
Proof.
  destruct C92_ex_hyps as (A & B & C & D). apply (C92_starts _ _ _ S_w _ _ S_good _ A B C D).
  assert (H : S_run S_good <> None) by (rewrite (proj1 C92_ex_run); discriminate). unfold S_run in H. destruct (begin _ _ _ _ _ _ _ _) as [| |m ls oc]; [congruence|congruence|eauto].
Qed.
Example C92_ex_texts : texts S_w ["a"; "b"; "a"] ("x" ++ String "010" ("y" ++ String "010" ("x" ++ String "010" ""))).
Proof. repeat (apply Texts_cons; [reflexivity|]). apply Texts_nil. Qed.
Example C92_ex_mode : map (fun s => runFDServer 4 s false "/run/x") ["750"; "0777"; "1000"; "8"; ""; "40000000000"; "37777777777"] =
  [RunsFDServer "/run/x" false 488; RunsFDServer "/run/x" false 511; Fails; Fails; RunsFDServer "/run/x" false 0; Fails; Fails].
Proof. vm_compute. reflexivity. Qed.
