(** C52: from the configuration to the elements. [ord] and [es] stand for the orders of Go's maps; the theorems hold for all of them. An
    element with an empty id is left out (what the graph library does with it is not modelled). *)
From Verif Require Import Base Config_model Config_spec Config_proofs.
Local Open Scope string_scope.

(** Start-up succeeds for exactly the valid configurations, *)
Theorem C52_starts : forall build ord c es, ~ In "" (ids c) -> any_order ord -> Permutation es (flat_map edges_of (nodes c)) ->
  ((exists m built ls, start build ord c es = Started m built ls) <-> valid build c).
Proof. exact starts_iff. Qed.
Print Assumptions C52_starts.
(** and fails for all others: it never loops. *)
Theorem C52_fails : forall build ord c es, ~ In "" (ids c) -> any_order ord -> Permutation es (flat_map edges_of (nodes c)) ->
  (start build ord c es = Error <-> ~ valid build c).
Proof. exact error_iff. Qed.
Print Assumptions C52_fails.
Theorem C52_ends : forall build ord c es, ~ In "" (ids c) -> any_order ord -> Permutation es (flat_map edges_of (nodes c)) ->
  start build ord c es <> Hangs.
Proof. exact start_ends. Qed.
Print Assumptions C52_ends.
(** Every element is built exactly once, after everything it refers to, *)
Theorem C52_order : forall build ord c es, ~ In "" (ids c) -> any_order ord -> Permutation es (flat_map edges_of (nodes c)) ->
  forall m built ls, start build ord c es = Started m built ls ->
  NoDup built /\ (forall a, In a built <-> In a (ids c)) /\ forall b1 a b2, built = (b1 ++ a :: b2)%list -> forall r, refers c a r -> In r b1.
Proof. exact started_order. Qed.
Print Assumptions C52_order.
(** and is given these elements, in the order of the configuration. *)
Theorem C52_wired : forall build ord c es, ~ In "" (ids c) -> any_order ord -> Permutation es (flat_map edges_of (nodes c)) ->
  forall m built ls, start build ord c es = Started m built ls -> wired c m.
Proof. exact started_wired. Qed.
Print Assumptions C52_wired.
(** Every listener is given the element it names; only the admin listener may go without. *)
Theorem C52_listeners : forall build ord c es, ~ In "" (ids c) -> any_order ord -> Permutation es (flat_map edges_of (nodes c)) ->
  forall m built ls, start build ord c es = Started m built ls ->
  Forall2 (fun l x => fst x = fst (fst l) /\ snd x = lookup (snd l) m /\ (snd (fst l) = false -> snd x <> None)) (c_listeners c) ls.
Proof. exact started_listeners. Qed.
Print Assumptions C52_listeners.
(** The orders of the maps make no difference. *)
Theorem C52_same : forall build c es1 es2 ord1 ord2, ~ In "" (ids c) -> any_order ord1 -> any_order ord2 ->
  Permutation es1 (flat_map edges_of (nodes c)) -> Permutation es2 (flat_map edges_of (nodes c)) ->
  forall m1 b1 ls1, start build ord1 c es1 = Started m1 b1 ls1 ->
  exists m2 b2, start build ord2 c es2 = Started m2 b2 ls1 /\ forall a, lookup a m1 = lookup a m2.
Proof. exact any_result. Qed.
Print Assumptions C52_same.

(** A cache in front of a blocklist that sends blocked names to a second resolver, a router over both, two listeners *)
Definition demo : config := Config (Some true) ["up"; "blocked"]
  [("cache", (["list"], [""; ""; ""; ""])); ("list", (["up"], [""; "blocked"; ""; ""]))] [("router", ["cache"; "up"; "cache"])]
  [("udp", false, "router"); ("boot", false, "bootstrap-resolver"); ("admin", true, "")].
Definition all_good (_ : string) : bool := true.
Definition as_is (_ : nat) (l : list string) : list string := l.
Definition backwards (_ : nat) (l : list string) : list string := rev l.
Example C52_demo_orders : any_order as_is /\ any_order backwards.
Proof. split; intros n l; [reflexivity|]. symmetry. apply Permutation_rev. Qed.
Example C52_demo_ids : ~ In "" (ids demo).
Proof. cbn. intuition discriminate. Qed.
Definition built_of (o : outcome) : option (list string) := match o with Started _ b _ => Some b | _ => None end.
Example C52_demo_built : built_of (start all_good as_is demo (flat_map edges_of (nodes demo))) = Some ["up"; "blocked"; "list"; "cache"; "router"] /\
  built_of (start all_good backwards demo (rev (flat_map edges_of (nodes demo)))) = Some ["blocked"; "up"; "list"; "cache"; "router"].
Proof. split; reflexivity. Qed.
Example C52_demo_listeners : match start all_good as_is demo (flat_map edges_of (nodes demo)) with Started m _ ls => map fst ls = ["udp"; "boot"; "admin"] /\
  lookup "list" m = Some (Obj "list" [Obj "up" [] []] [None; Some (Obj "blocked" [] []); None; None]) /\
  map snd ls = [lookup "router" m; Some (Obj "bootstrap-resolver" [] []); None] | _ => False end.
Proof. cbn. auto. Qed.
Example C52_demo_valid : valid all_good demo.
Proof. apply (C52_starts all_good as_is demo (flat_map edges_of (nodes demo)) C52_demo_ids (proj1 C52_demo_orders) (Permutation_refl _)). vm_compute. eauto. Qed.
(** A cycle, a missing element and a missing resolver of a listener *)
Example C52_demo_cycle : start all_good as_is (Config None [] [("a", (["b"], [])); ("b", (["a"], []))] [] []) [("a", "b"); ("b", "a")] = Error.
Proof. reflexivity. Qed.
Example C52_demo_missing : start all_good as_is (Config None [] [("a", (["b"], []))] [] []) [("a", "b")] = Error.
Proof. reflexivity. Qed.
Example C52_demo_listener : start all_good as_is (Config None ["r"] [] [] [("l", false, "s")]) [] = Error.
Proof. reflexivity. Qed.
(** The full claim does not hold: a configuration without cycles in which everything exists is refused because a group names the same
    resolver twice, here as its resolver and for the blocked names. *)
Theorem C52_twice_refuted : exists c es, ~ In "" (ids c) /\ Permutation es (flat_map edges_of (nodes c)) /\ NoDup (ids c) /\
  (forall a b, refers c a b -> In b (ids c)) /\ (forall a b, refers c a b -> a = "list" /\ b = "up") /\
  forall build ord, any_order ord -> start build ord c es = Error.
Proof. exact twice_refused. Qed.
Print Assumptions C52_twice_refuted.
(** Groups and routers cannot use the bootstrap resolver; listeners can (see above). *)
Theorem C52_bootstrap_refuted : forall build ord, any_order ord -> start build ord (Config (Some true) [] [("cache", (["bootstrap-resolver"], []))] [] []) [("cache", "bootstrap-resolver")] = Error.
Proof. exact bootstrap_refused. Qed.
Print Assumptions C52_bootstrap_refuted.
