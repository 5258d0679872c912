(** C26: the router (route.go, router.go, instantiateRouter in cmd/routedns/main.go). [compile] is
    regexp.Compile, [parseAddr] netip.ParseAddr, [typeByName] the inverse of dns.TypeToString;
    [now i] is the time at which the i-th route is looked at. *)
From Verif Require Import Base Bytes Dns Cidr_spec Net_spec Router_model Router_spec Router_proofs.
Local Open Scope Z_scope.

(** Exactly one resolver gets the query, unchanged: that of the first entry that takes it; with none
    there is an error. *)
Theorem C26_first compile parseAddr typeByName : parse_ok parseAddr ->
  forall resolve now entries routes q ci x l,
  instantiateRouter compile parseAddr typeByName entries = Some routes -> m_question q = x :: l ->
  ci_ip ci = [] \/ ip_ok (ci_ip ci) -> (forall y, subnet_addr q y -> y = [] \/ ip_ok y) -> (forall i, 0 <= lt_minute (now i) <= 59) ->
  (exists i e, nth_error entries i = Some e /\ takes compile parseAddr typeByName now q ci x i e /\
     (forall j e', (j < i)%nat -> nth_error entries j = Some e' -> ~ takes compile parseAddr typeByName now q ci x j e') /\
     router_resolve resolve now routes q ci = Some ([(rc_resolver (re_cfg e), q)], resolve (rc_resolver (re_cfg e)) q ci)) \/
  ((forall j e', nth_error entries j = Some e' -> ~ takes compile parseAddr typeByName now q ci x j e') /\
   exists s, router_resolve resolve now routes q ci = Some ([], Err s)).
Proof. exact (router_spec compile parseAddr typeByName). Qed.
Print Assumptions C26_first.

(** Routes added later never change where a query goes that was taken before. *)
Theorem C26_append resolve now routes more q ci calls a : router_resolve resolve now routes q ci = Some (calls, a) -> calls <> [] ->
  router_resolve resolve now (routes ++ more) q ci = Some (calls, a).
Proof. exact (router_prefix resolve now routes more q ci calls a). Qed.
Print Assumptions C26_append.

(** Examples *)
Definition C26_compile (s : string) : option (string -> bool) := Some (fun x => has_prefix s x).
Definition C26_addr (s : string) : option bytes := if String.eqb s "10.0.0.0" then Some [10;0;0;0]%N else if String.eqb s "::" then Some (repeat 0%N 16) else None.
Definition C26_type (s : string) : option N := if String.eqb s "MX" then Some 15%N else if String.eqb s "A" then Some 1%N else None.
Definition C26_cfg (name class : string) (types days : list string) (before after source ecs : string) (r : nat) : routecfg :=
  RouteCfg name class types days before after source ecs "" "" "" r.
Definition C26_entries : list routeentry :=
  [RouteEntry (C26_cfg "" "inet" ["mx"%string] [] "" "" "" "" 1) "a" true;
   RouteEntry (C26_cfg "x." "" [] [] "" "" "10.0.0.0/8" "" 2) "" false;
   RouteEntry (C26_cfg "" "" [] ["sat";"sun"]%string "17:30" "8" "" "" 3) "" false;
   RouteEntry (C26_cfg "" "" [] [] "" "" "" "::/0" 4) "" false;
   RouteEntry (C26_cfg "" "" [] [] "" "" "" "" 5) "" false].
Definition C26_go (x : question) (ip : bytes) (opts : list edns0) (t : localtime) : option (list nat) :=
  match instantiateRouter C26_compile C26_addr C26_type C26_entries with
  | Some routes => option_map (fun r => map fst (fst r))
      (router_resolve (fun _ _ _ => Drop) (fun _ => t) routes (set_extra [new_opt 0 false opts] (set_question [x] empty_msg)) (Client ip "" "" ""))
  | None => None
  end.
Example C26_ex :
  [C26_go (Q "x." 28 1) [10;1;1;1]%N [] (LocalTime 6 9 0);
   C26_go (Q "x." 1 1) ([0;0;0;0;0;0;0;0;0;0;255;255;10;1;1;1])%N [] (LocalTime 6 9 0);
   C26_go (Q "x." 1 1) [11;1;1;1]%N [] (LocalTime 6 17 29);
   C26_go (Q "x." 1 1) [11;1;1;1]%N [ECS 2 0 0 (repeat 0%N 16)] (LocalTime 6 17 30);
   C26_go (Q "x." 15 1) [11;1;1;1]%N [ECS 2 0 0 (repeat 0%N 16); ECS 1 0 0 [1;2;3;4]%N] (LocalTime 1 9 0)] =
  [Some [1]; Some [2]; Some [3]; Some [4]; Some [5]]%nat.
Proof. vm_compute. reflexivity. Qed.
Example C26_hyps : parse_ok C26_addr /\ instantiateRouter C26_compile C26_addr C26_type C26_entries <> None.
Proof.
  split; [|discriminate]. intros s a. unfold C26_addr. destruct (String.eqb_spec s "10.0.0.0") as [->|_].
  - intros H. injection H as <-. split; [split; [repeat constructor|left; reflexivity]|]. split; [reflexivity|discriminate].
  - destruct (String.eqb_spec s "::") as [->|_]; [|discriminate]. intros H. injection H as <-.
    split; [split; [repeat constructor|right; reflexivity]|]. split; [discriminate|reflexivity].
Qed.
