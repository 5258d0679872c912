(** The groups that pick a resolver, change queries or responses, or answer by themselves, as main.go builds them:
    cmd/routedns/main.go:475-524, 613-671, 672-711, 951-1012, 1073-1083 (instantiateGroup), with the constructors they call. *)
From Verif Require Import Base Bytes Dns Net Redis_model Modifiers_model RateLimit_model Groups_model Blocklist_model Static_model Dns64_model FastestTcp_model ListCfg_model.
Local Open Scope bool_scope.

(** cmd/routedns/config.go:109-224 group: the fields of these types. The response codes are ints in the code; here they are not negative. *)
Record settings := Settings {
  s_resolvers : list string; s_replace : list (string * string);
  s_ecsOp : string; s_ecsAddress : bytes; s_ecsPrefix4 : N; s_ecsPrefix6 : N;
  s_ttlMin : N; s_ttlMax : N; s_ttlSelect : string;
  s_edns0Op : string; s_edns0Code : N; s_edns0Data : bytes;
  s_resetAfter : option Z; s_servfailError : bool; s_emptyError : bool; s_failurePenalty : Z;
  s_answer : list string; s_ns : list string; s_extra : list string; s_rcode : N; s_edeCode : N; s_edeText : string; s_truncate : bool;
  s_requests : N; s_window : N; s_prefix4 : N; s_prefix6 : N; s_limitResolver : string;
  s_port : N; s_waitAll : bool; s_successTTLMin : N; s_nullRCode : N; s_retryResolver : string; s_dns64Prefix : list string }.
(** A group with no other setting than its resolvers, in Go the zero value *)
Definition plain (resolvers : list string) : settings :=
  Settings resolvers [] "" [] 0 0 0 0 "" "" 0 [] None false false 0 [] [] [] 0 0 "" false 0 0 0 0 "" 0 false 0 0 "" [].

Section CFG.
Variable R : Type.
(** The resolvers there are so far *)
Variable resolvers : string -> option R.
(** regexp.Compile, and ReplaceAllString of the expression *)
Variable compile : string -> option (string -> string -> string).
(** dns.NewRR; NewTemplate for records and for extended errors; netip.ParseAddr *)
Variable newRR : string -> option (option rr).
Variable recTemplate : string -> option (tinput -> option string).
Variable newTemplate : string -> option (msg -> option (string * string) -> option string).
Variable parseAddr : string -> option bytes.

Inductive element :=
| ERoundRobin (gr : list R)
| EFailRotate (gr : list R) (servfail empty : bool)
| EFailBack (gr : list R) (reset : Z) (servfail empty : bool)
| EFastest (gr : list R)
| ELoadBalance (gr : list R) (penalty : Z) (servfail empty : bool)
| ERandom (gr : list R) (reset : Z) (servfail empty : bool)
| EReplace (up : R) (exps : list (string -> string))
| ETTL (up : R) (sel : option ttlselect) (minTTL maxTTL : N)
| ETruncate (up retry : R)
| EDedup (up : R)
| EFastestTCP (up : R) (port : string) (waitAll : bool) (ttlmin : N)
| EECS (up : R) (modifier : option (client -> msg -> msg))
| EEDNS0 (up : R) (modifier : option (msg -> msg))
| EStatic (h : heap) (s : static)
| ETemplate (answer ns extra : list (tinput -> option string)) (rcode : N) (truncate : bool) (ede : option edetemplate)
| EMinimize (up : R)
| ECollapse (up : R) (nullRCode : N)
| EDrop
| ERate (up : R) (o : rl_opts) (limit : option R)
| EDNS64 (up : R) (prefixes : list d64prefix).

(** main.go:476-485; None: an error *)
Fixpoint lookup_all (names : list string) : option (list R) :=
  match names with
  | [] => Some []
  | n :: names' => match resolvers n with
                   | None => None
                   | Some r => option_map (cons r) (lookup_all names')
                   end
  end.
Definition one (gr : list R) (f : R -> option element) : option element := match gr with [up] => f up | _ => None end.
(** main.go:495-498, 515-518 *)
Definition reset_of (g : settings) : Z := seconds (match s_resetAfter g with None => 60%Z | Some n => n end).
(** main.go:625-641; None: an error *)
Definition select_of (w : string) : option (option ttlselect) :=
  if String.eqb w "lowest" then Some (Some SelLowest) else if String.eqb w "highest" then Some (Some SelHighest)
  else if String.eqb w "average" then Some (Some SelAverage) else if String.eqb w "first" then Some (Some SelFirst)
  else if String.eqb w "last" then Some (Some SelLast) else if String.eqb w "random" then Some (Some SelRandom)
  else if String.eqb w "" then Some None else None.
(** replace.go:40-51 NewReplace *)
Fixpoint compile_all (l : list (string * string)) : option (list (string -> string)) :=
  match l with
  | [] => Some []
  | (from, to) :: l' => match compile from with
                        | None => None
                        | Some re => option_map (cons (re to)) (compile_all l')
                        end
  end.
(** main.go:677-690 *)
Definition ecs_of (g : settings) : option (option (client -> msg -> msg)) :=
  let p4 := s_ecsPrefix4 g in let p6 := s_ecsPrefix6 g in
  if String.eqb (s_ecsOp g) "add" then Some (Some (ECSModifierAdd (s_ecsAddress g) p4 p6))
  else if String.eqb (s_ecsOp g) "add-if-missing" then Some (Some (ECSModifierAddIfMissing (s_ecsAddress g) p4 p6))
  else if String.eqb (s_ecsOp g) "delete" then Some (Some (fun _ => ECSModifierDelete))
  else if String.eqb (s_ecsOp g) "privacy" then Some (Some (fun _ => ECSModifierPrivacy p4 p6))
  else if String.eqb (s_ecsOp g) "" then Some None else None.
(** main.go:699-708 *)
Definition edns0_of (g : settings) : option (option (msg -> msg)) :=
  if String.eqb (s_edns0Op g) "add" then Some (Some (EDNS0ModifierAdd (s_edns0Code g) (s_edns0Data g)))
  else if String.eqb (s_edns0Op g) "delete" then Some (Some (EDNS0ModifierDelete (s_edns0Code g)))
  else if String.eqb (s_edns0Op g) "" then Some None else None.
(** static-template.go:23-51 NewStaticTemplateResolver, one section *)
Fixpoint templates (l : list string) : option (list (tinput -> option string)) :=
  match l with
  | [] => Some []
  | t :: l' => match recTemplate t with None => None | Some f => option_map (cons f) (templates l') end
  end.
(** fastest-tcp.go:49-60 NewFastestTCP: the port as text *)
Definition port_text (p : N) : string := let t := itoa p in if String.eqb t "0" then "443" else t.

(** instantiateGroup for these types; None: an error, or another type *)
Definition make (type : string) (g : settings) : option element :=
  match lookup_all (s_resolvers g) with
  | None => None
  | Some gr =>
      (* main.go:487-524 *)
      if String.eqb type "round-robin" then Some (ERoundRobin gr)
      else if String.eqb type "fail-rotate" then Some (EFailRotate gr (s_servfailError g) (s_emptyError g))
      else if String.eqb type "fail-back" then Some (EFailBack gr (reset_of g) (s_servfailError g) (s_emptyError g))
      else if String.eqb type "fastest" then Some (EFastest gr)
      else if String.eqb type "load-balance" then Some (ELoadBalance gr (seconds (s_failurePenalty g)) (s_servfailError g) (s_emptyError g))
      else if String.eqb type "random" then Some (ERandom gr (reset_of g) (s_servfailError g) (s_emptyError g))
      (* main.go:613-620 *)
      else if String.eqb type "replace" then one gr (fun up => option_map (EReplace up) (compile_all (s_replace g)))
      (* main.go:621-647 *)
      else if String.eqb type "ttl-modifier" then one gr (fun up => option_map (fun sel => ETTL up sel (s_ttlMin g) (s_ttlMax g)) (select_of (s_ttlSelect g)))
      (* main.go:648-657 *)
      else if String.eqb type "truncate-retry" then one gr (fun up => option_map (ETruncate up) (resolvers (s_retryResolver g)))
      (* main.go:658-662 *)
      else if String.eqb type "request-dedup" then one gr (fun up => Some (EDedup up))
      (* main.go:663-671 *)
      else if String.eqb type "fastest-tcp" then one gr (fun up => Some (EFastestTCP up (port_text (s_port g)) (s_waitAll g) (s_successTTLMin g)))
      (* main.go:672-694 *)
      else if String.eqb type "ecs-modifier" then one gr (fun up => option_map (EECS up) (ecs_of g))
      (* main.go:695-712 *)
      else if String.eqb type "edns0-modifier" then one gr (fun up => option_map (EEDNS0 up) (edns0_of g))
      (* main.go:952-968 *)
      else if String.eqb type "static-responder" then
        match newEDE newTemplate (s_edeCode g) (s_edeText g) with
        | None => None
        | Some t => option_map (fun p => EStatic (fst p) (snd p)) (newStatic newRR [] (s_answer g) (s_ns g) (s_extra g) (s_rcode g) (s_truncate g) t)
        end
      (* main.go:969-985 *)
      else if String.eqb type "static-template" then
        match newEDE newTemplate (s_edeCode g) (s_edeText g), templates (s_answer g), templates (s_ns g), templates (s_extra g) with
        | Some t, Some a, Some n, Some x => Some (ETemplate a n x (s_rcode g) (s_truncate g) t)
        | _, _, _, _ => None
        end
      (* main.go:986-990 *)
      else if String.eqb type "response-minimize" then one gr (fun up => Some (EMinimize up))
      (* main.go:991-998 *)
      else if String.eqb type "response-collapse" then one gr (fun up => Some (ECollapse up (s_nullRCode g)))
      (* main.go:999-1000 *)
      else if String.eqb type "drop" then Some EDrop
      (* main.go:1001-1012, rate-limiter.go:45-65 *)
      else if String.eqb type "rate-limiter" then
        one gr (fun up => Some (ERate up (rl_defaults (RlOpts (s_requests g) (s_window g) (s_prefix4 g) (s_prefix6 g))) (resolvers (s_limitResolver g))))
      (* main.go:1073-1083 *)
      else if String.eqb type "dns64" then one gr (fun up => option_map (EDNS64 up) (newDNS64 parseAddr (s_dns64Prefix g)))
      else None
  end.

(** *** Queries *)
Variable resolve : R -> msg -> client -> result.
(** rand.Intn; the order in which TCP probes of these records on a port come back; class and type names *)
Variable intn : N -> N.
Variable probes : string -> list rr -> list (nat * bool).
Variables classToString typeToString : N -> string.
Definition answers_of (r : result) : list rr := match r with Ans a => m_answer a | _ => [] end.
(** Resolve of the elements that keep no state: the resolvers asked, with what, and the result. None: a panic, or another element *)
Definition ask (e : element) (q : msg) (ci : client) : option (list (R * msg) * result) :=
  match e with
  | EReplace up exps => option_map (fun p => ([(up, fst p)], snd p)) (replace_resolve exps (fun q => resolve up q ci) q)
  | ETTL up sel lo hi => Some ([(up, q)], ttl_resolve intn sel lo hi (resolve up q ci))
  | ETruncate up retry => let r := truncate_resolve (fun q => resolve up q ci) (fun q => resolve retry q ci) q in
                          Some (map (pair up) (fst (fst r)) ++ map (pair retry) (snd (fst r)), snd r)
  | EFastestTCP up port waitAll ttlmin =>
      let r := resolve up q ci in option_map (fun r' => ([(up, q)], r')) (fastest_tcp waitAll ttlmin (probes port (answers_of r)) q r)
  | EECS up f => let p := modify_query (option_map (fun f => f ci) f) (fun q => resolve up q ci) q in Some ([(up, fst p)], snd p)
  | EEDNS0 up f => let p := modify_query f (fun q => resolve up q ci) q in Some ([(up, fst p)], snd p)
  | EMinimize up => Some ([(up, q)], minimize_resolve (resolve up q ci))
  | ECollapse up rc => option_map (fun r => ([(up, q)], r)) (collapse_resolve rc (fun q => resolve up q ci) q)
  | EDrop => Some ([], drop_resolve q)
  | EDNS64 up ps => option_map (fun p => (map (pair up) (fst p), snd p)) (dns64_resolve ps (fun q => resolve up q ci) q)
  | _ => None
  end.
(** The fixed responders: after a history of queries, and of writes into the records they returned (Static_model) *)
Definition static_run (e : element) (es : list sevent) : option (heap * list ptr) := match e with EStatic h s => srun s (h, []) es | _ => None end.
Definition static_ask (e : element) (st : heap * list ptr) (q : msg) : option msg :=
  match e with EStatic _ s => option_map snd (static_resolve s (fst st) q) | _ => None end.
Definition template_ask (e : element) (q : msg) : option (msg * list (option rr) * list (option rr) * list (option rr)) :=
  match e with ETemplate a n x rc tc ede => Some (template_resolve newRR classToString typeToString a n x rc tc ede q) | _ => None end.
(** The rate limiter, over a history of times and clients: who gets each query. None: a panic *)
Definition rate (ipString : bytes -> string) (e : element) (h : list (Z * bytes)) : list (option (option R)) :=
  match e with
  | ERate up o limit => map (fun x => match x with RlForward => Some (Some up) | RlLimit => Some limit | RlDrop => Some None | RlPanic => None end)
                            (rl_run ipString o (has limit) h rl_init)
  | _ => []
  end.
(** Runs of the groups that keep state (Groups_model): what is done and to which end *)
Definition failrotate_run (e : element) (l : list gevent) : option Groups_model.group :=
  match e with EFailRotate gr sf em => exec (fr_step (length gr) (good_reply sf em)) g_init l | _ => None end.
Definition failback_run (e : element) (l : list gevent) : option fb :=
  match e with EFailBack gr reset sf em => exec (fb_step (length gr) (good_reply sf em) reset) fb_init l | _ => None end.
Definition random_run (e : element) (l : list gevent) : option rnd :=
  match e with ERandom gr reset sf em => exec (rnd_step (good_reply sf em)) (rnd_init (seq 0 (length gr))) l | _ => None end.
Definition balance (e : element) (picks : nat -> list nat -> nat) (up : nat -> nat -> result) : option (list nat * result) :=
  match e with ELoadBalance gr penalty sf em => lb_resolve (good_reply sf em) picks up (length gr) | _ => None end.
(** loadbalance.go: the statistics after the measured outcomes (succeeded?, microseconds) of a resolver. The penalty is a duration, in nanoseconds. *)
Definition statistics (e : element) (l : list (bool * Z)) : option lbstats :=
  match e with
  | ELoadBalance gr penalty sf em =>
      Some (fold_left (fun s (x : bool * Z) => if fst x then updateOnSuccess (QArith_base.inject_Z (snd x)) s
                                  else updateOnFailure (QArith_base.Qmake penalty 1000) (QArith_base.inject_Z (snd x)) s) l lbs0)
  | _ => None
  end.
(** How long a failed resolver is left out (fail-back: how long until the first one is used again), in nanoseconds; negative or zero: no time *)
Definition reset_period (e : element) : option Z := match e with EFailBack _ reset _ _ | ERandom _ reset _ _ => Some reset | _ => None end.
(** The resolvers of a group, by position *)
Definition members (e : element) : list R :=
  match e with
  | ERoundRobin gr | EFastest gr | EFailRotate gr _ _ | EFailBack gr _ _ _ | ERandom gr _ _ _ | ELoadBalance gr _ _ _ => gr
  | _ => []
  end.
End CFG.
