(** C88: groups that pick a resolver, change queries or responses, or answer by themselves do what their settings say *)
From Verif Require Import Base Bytes Dns Groups_model Groups_spec Cidr_spec Net_spec Modifiers_spec Static_model Static_spec RateLimit_spec ListCfg_model Blocklist_model
  ModCfg_model ModCfg_spec ModCfg_proofs ModCfg_proofs2 ModCfg_proofs3.
From Verif Require Dns64_spec Dns64_proofs FastestTcp_spec RateLimit_proofs2.
From Coq Require Import QArith.
Local Open Scope nat_scope.

(** Exactly the groups whose settings can be understood are made: every resolver named exists, there is one where one is asked, words are known, expressions, records and templates can be read. *)
Theorem C88_starts : forall (R : Type) (w : world R) type g,
  parse_ok (w_addr w) -> (made w type g <> None <-> startable w type g).
Proof. intros R w. exact (started w). Qed.
Print Assumptions C88_starts.
Local Open Scope N_scope.

(** ttl-modifier: ttl-min, ttl-max, ttl-select. *)
Theorem C88_ttl : forall (R : Type) (w : world R) g e,
  s_ttlMin g <= 4294967295 -> s_ttlMax g <= 4294967295 -> (forall n, 0 < n -> w_random w n < n) -> made w "ttl-modifier" g = Some e ->
  exists up, only w g up /\ forall q ci, exists r, does w e q ci = Some ([(up, q)], r) /\
  match w_answer w up q ci with
  | Ans a => small_ttls a -> exists a', r = Ans a' /\ ttl_says g a a'
  | r' => r = r'
  end.
Proof. intros R w. exact (cfg_ttl w). Qed.
Print Assumptions C88_ttl.

(** ecs-modifier: ecs-op, ecs-address, ecs-prefix4, ecs-prefix6. *)
Theorem C88_ecs : forall (R : Type) (w : world R) g e,
  s_ecsPrefix4 g <= 32 -> s_ecsPrefix6 g <= 128 -> made w "ecs-modifier" g = Some e ->
  exists up, only w g up /\ forall q ci, opt_wf q -> exists q', does w e q ci = Some ([(up, q')], w_answer w up q' ci) /\ ecs_says g ci q q' (s_ecsOp g).
Proof. intros R w. exact (cfg_ecs w). Qed.
Print Assumptions C88_ecs.

(** edns0-modifier: edns0-op, edns0-code, edns0-data. *)
Theorem C88_edns0 : forall (R : Type) (w : world R) g e,
  made w "edns0-modifier" g = Some e ->
  exists up, only w g up /\ forall q ci, opt_wf q -> exists q', does w e q ci = Some ([(up, q')], w_answer w up q' ci) /\ edns0_says g q q' (s_edns0Op g).
Proof. intros R w. exact (cfg_edns0 w). Qed.
Print Assumptions C88_edns0.

(** replace: the expressions one after the other, and back in the response. *)
Theorem C88_replace : forall (R : Type) (w : world R) g e,
  made w "replace" g = Some e ->
  exists up, only w g up /\ forall q ci x l, m_question q = x :: l -> exists new sent r,
    rewritten (w_regexp w) (s_replace g) (q_name x) new /\ does w e q ci = Some ([(up, sent)], r) /\
    (new = q_name x -> sent = q /\ r = w_answer w up q ci) /\
    (new <> q_name x -> asks new q sent /\
      match w_answer w up sent ci with
      | Ans a => exists a', r = Ans a' /\ renamed (q_name x) new a a'
      | r' => r = r'
      end).
Proof. intros R w. exact (cfg_replace w). Qed.
Print Assumptions C88_replace.

(** truncate-retry: truncated responses, and only these, are asked for again from retry-resolver. *)
Theorem C88_truncate : forall (R : Type) (w : world R) g e,
  made w "truncate-retry" g = Some e ->
  exists up retry, only w g up /\ w_resolvers w (s_retryResolver g) = Some retry /\ forall q ci,
    match w_answer w up q ci with
    | Ans a => if m_tc a then does w e q ci = Some ([(up, q); (retry, q)], w_answer w retry q ci) else does w e q ci = Some ([(up, q)], Ans a)
    | r => does w e q ci = Some ([(up, q)], r)
    end.
Proof. intros R w. exact (cfg_truncate w). Qed.
Print Assumptions C88_truncate.

(** response-minimize. *)
Theorem C88_minimize : forall (R : Type) (w : world R) g e,
  made w "response-minimize" g = Some e ->
  exists up, only w g up /\ forall q ci, exists r, does w e q ci = Some ([(up, q)], r) /\
  match w_answer w up q ci with Ans a => r = Ans (set_ns [] (set_extra [] a)) | r' => r = r' end.
Proof. intros R w. exact (cfg_minimize w). Qed.
Print Assumptions C88_minimize.

(** response-collapse: null-rcode for responses of which nothing is left. *)
Theorem C88_collapse : forall (R : Type) (w : world R) g e,
  made w "response-collapse" g = Some e ->
  exists up, only w g up /\ forall q ci x l, m_question q = x :: l -> exists r, does w e q ci = Some ([(up, q)], r) /\
    match w_answer w up q ci with
    | Ans a => (m_rcode a <> 0 -> r = Ans a) /\
               (m_rcode a = 0 -> exists an, collapsed x (m_answer a) an /\
                  (an <> [] -> r = Ans (set_answer an a)) /\
                  (an = [] -> exists b, r = Ans b /\ bare_reply q (s_nullRCode g) b))
    | r' => r = r'
    end.
Proof. intros R w. exact (cfg_collapse w). Qed.
Print Assumptions C88_collapse.

(** drop. *)
Theorem C88_drop : forall (R : Type) (w : world R) g e q ci,
  made w "drop" g = Some e -> does w e q ci = Some ([], Drop).
Proof. intros R w. exact (cfg_drop w). Qed.
Print Assumptions C88_drop.

(** static-responder: answer, ns, extra, rcode, truncate, edns0-ede, to every query, whatever was done to the responses before. *)
Theorem C88_static : forall (R : Type) (w : world R) g e A N E,
  made w "static-responder" g = Some e ->
  Forall2 (fun t r => w_record w t = Some (Some r)) (s_answer g) A -> Forall2 (fun t r => w_record w t = Some (Some r)) (s_ns g) N ->
  Forall2 (fun t r => w_record w t = Some (Some r)) (s_extra g) E ->
  forall es, exists st, static_run R e es = Some st /\
  forall q, exists a x, static_ask R e st q = Some a /\ ede_says w g q x /\ fixed_reply A N E (s_rcode g) (s_truncate g) x q a.
Proof. intros R w. exact (cfg_static w). Qed.
Print Assumptions C88_static.

(** static-template: the same with templates. *)
Theorem C88_template : forall (R : Type) (w : world R) g e,
  made w "static-template" g = Some e ->
  exists fa fn fe, Forall2 (fun t f => w_template w t = Some f) (s_answer g) fa /\ Forall2 (fun t f => w_template w t = Some f) (s_ns g) fn /\
    Forall2 (fun t f => w_template w t = Some f) (s_extra g) fe /\
  forall q, let i := input_of (w_class w) (w_type w) q in
  (forall f text, In f (fa ++ fn ++ fe) -> f i = Some text -> w_record w text <> Some None) ->
  exists m A N E x d, template_ask R (w_record w) (w_class w) (w_type w) e q = Some (m, map Some A, map Some N, map Some (E ++ x)) /\
    rendered (w_record w) i fa A /\ rendered (w_record w) i fn N /\ rendered (w_record w) i fe E /\
    ede_says w g q d /\ fixed_reply [] [] [] (s_rcode g) (s_truncate g) d q (set_extra x m).
Proof. intros R w. exact (cfg_template w). Qed.
Print Assumptions C88_template.

(** dns64: dns64-prefixes, 64:ff9b::/96 if there are none. *)
Theorem C88_dns64 : forall (R : Type) (w : world R) g e,
  parse_ok (w_addr w) -> made w "dns64" g = Some e ->
  exists up nets, only w g up /\ Forall2 (Dns64_spec.prefix_text (w_addr w)) (prefixes g) nets /\ forall q ci, m_question q <> [] ->
  let ask q := w_answer w up q ci in
  (forall x q' a b, Dns64_spec.wants q x -> Dns64_spec.asks_a q q' -> Dns64_spec.needs ask q q' a b ->
    exists r cnames recs made, does w e q ci = Some ([(up, q); (up, q')], Ans r) /\
      Dns64_spec.picked Dns64_spec.alias (m_answer b) cnames /\ Dns64_spec.picked Dns64_spec.has_v4 (m_answer b) recs /\
      m_answer r = cnames ++ made /\ Forall2 (fun rn y => Dns64_spec.made_from x (fst rn) (snd rn) y) (list_prod recs nets) made /\
      m_id r = m_id q /\ m_rcode r = 0 /\ m_question r = [x]) /\
  ((~ exists x q' a b, Dns64_spec.wants q x /\ Dns64_spec.asks_a q q' /\ Dns64_spec.needs ask q q' a b) ->
    exists qs, does w e q ci = Some (qs, ask q)).
Proof. intros R w. exact (cfg_dns64 w). Qed.
Print Assumptions C88_dns64.

(** fastest-tcp: port (443 if not set), wait-all, success-ttl-min. *)
Theorem C88_fastest_tcp : forall (R : Type) (w : world R) g e,
  made w "fastest-tcp" g = Some e ->
  exists up p, only w g up /\ port_says g p /\ forall q ci, m_question q <> [] ->
  let r := w_answer w up q ci in let arr := w_probes w p (match r with Ans a => m_answer a | _ => [] end) in
  (forall a T, r = Ans a -> FastestTcp_spec.applies q a T -> let c := FastestTcp_spec.candidates T (m_answer a) in
     FastestTcp_spec.probes (length c) arr -> FastestTcp_spec.usable (s_waitAll g) c arr ->
     exists b new ks, does w e q ci = Some ([(up, q)], Ans b) /\ FastestTcp_spec.same_but_answer a b /\ FastestTcp_spec.replaced T (m_answer a) new (m_answer b) /\
       FastestTcp_spec.in_order (s_successTTLMin g) c ks new /\ (exists x, hd_error arr = Some x /\ hd_error ks = Some (fst x)) /\
       (s_waitAll g = true -> ks = map fst arr)) /\
  (match r with Ans a => forall T, FastestTcp_spec.applies q a T -> let c := FastestTcp_spec.candidates T (m_answer a) in FastestTcp_spec.probes (length c) arr /\ ~ FastestTcp_spec.usable (s_waitAll g) c arr | _ => True end ->
     does w e q ci = Some ([(up, q)], r)).
Proof. intros R w. exact (cfg_fastest_tcp w). Qed.
Print Assumptions C88_fastest_tcp.

(** rate-limiter: requests, window (60), prefix4 (24), prefix6 (56), limit-resolver (none: dropped). *)
Theorem C88_rate : forall (R : Type) (w : world R) ipString g e,
  made w "rate-limiter" g = Some e -> ip_text ipString -> s_prefix4 g <= 32 -> s_prefix6 g <= 128 ->
  exists up, only w g up /\ forall a t x b n,
  let win := Z.of_N (or_default (s_window g) 60) in let h := a ++ (t, x) :: b in
  ordered win win h -> Forall (fun e => ip_ok (snd e)) h -> N.of_nat (length h) < 2 ^ 64 ->
  count (fun e => same_window win (fst e) t /\ same_subnet (or_default (s_prefix4 g) 24) (or_default (s_prefix6 g) 56) (snd e) x) a n ->
  nth_error (rate R ipString e h) (length a) = Some (Some (if n <? s_requests g then Some up else w_resolvers w (s_limitResolver g))).
Proof. intros R w. exact (cfg_rate w). Qed.
Print Assumptions C88_rate.
Local Open Scope nat_scope.

(** fail-rotate: servfail-error and empty-error say which replies are failures. *)
Theorem C88_fail_rotate : forall (R : Type) (w : world R) g e,
  made w "fail-rotate" g = Some e -> exists gr, several w g gr /\ members R e = gr /\ exists good, accepts g good /\
  forall l s t r, failrotate_run R e l = Some s -> g_pc s t = Returned r ->
  finished (length gr) good t r (mine t l) /\ forall k, k < length gr -> always_good good k l -> usable (s_servfailError g) (s_emptyError g) r.
Proof. intros R w. exact (cfg_failrotate w). Qed.
Print Assumptions C88_fail_rotate.

(** fail-back: the same, and reset-after (60) until the first resolver is used again; never, if it is 0. *)
Theorem C88_fail_back : forall (R : Type) (w : world R) g e,
  made w "fail-back" g = Some e -> short (match s_resetAfter g with None => 60%Z | Some n => n end) -> exists gr, several w g gr /\ members R e = gr /\ exists good, accepts g good /\
  (forall l s t r, failback_run R e l = Some s -> fb_pc s t = Returned r -> finished (length gr) good t r (mine t l)) /\
  (forall k l1 l2 s t r, k < length gr -> reset g <> 0%Z -> failback_run R e (l1 ++ Call t :: l2) = Some s -> always_good good k (l1 ++ Call t :: l2) ->
     ~ In TimerFire l2 -> fb_pc s t = Returned r -> usable (s_servfailError g) (s_emptyError g) r) /\
  (forall l s t r, reset g = 0%Z -> failback_run R e l = Some s -> fb_pc s t = Returned r -> exists k, sents (mine t l) = seq 0 k) /\
  (forall l s, (0 <= reset g)%Z -> failback_run R e l = Some s -> fb_active s <> 0 -> ~ (exists t i r, fb_pc s t = Signalling i r) -> fb_token s = false -> fb_timer s <> Starting ->
     exists d s', (0 <= d <= reset g)%Z /\ failback_run R e (l ++ [Pass d; TimerFire]) = Some s' /\ fb_active s' = 0) /\
  (forall l1 ev l2 s, ev = Consume \/ ev = TimerStart -> ~ In Consume l2 -> failback_run R e (l1 ++ ev :: l2 ++ [TimerFire]) = Some s -> (reset g <= elapsed l2)%Z).
Proof. intros R w. exact (cfg_failback w). Qed.
Print Assumptions C88_fail_back.

(** random: the same, and reset-after (60) for resolvers left out. *)
Theorem C88_random : forall (R : Type) (w : world R) g e,
  made w "random" g = Some e -> short (match s_resetAfter g with None => 60%Z | Some n => n end) -> exists gr, several w g gr /\ members R e = gr /\ reset_period R e = Some (reset g) /\
  exists good, accepts g good /\ forall l s t r, random_run R e l = Some s -> r_pc s t = Returned r ->
  rnd_finished (seq 0 (length gr)) good t r l /\ forall k, k < length gr -> always_good good k l -> usable (s_servfailError g) (s_emptyError g) r.
Proof. intros R w. exact (cfg_random w). Qed.
Print Assumptions C88_random.

(** load-balance: servfail-error and empty-error. *)
Theorem C88_load_balance : forall (R : Type) (w : world R) g e,
  made w "load-balance" g = Some e -> exists gr, several w g gr /\ members R e = gr /\ exists good, accepts g good /\
  forall picks up, (forall k rem, rem <> [] -> picks k rem < length rem) -> exists asked r, balance R e picks up = Some (asked, r) /\ lb_finished (length gr) good up asked r.
Proof. intros R w. exact (cfg_balance w). Qed.
Print Assumptions C88_load_balance.

(** load-balance: from the second failure in a row on, failure-penalty seconds count as the time a failed query took, however fast the failure came. *)
Theorem C88_penalty : forall (R : Type) (w : world R) g e l u1 u2 s1 s,
  made w "load-balance" g = Some e -> (0 < s_failurePenalty g)%Z -> short (s_failurePenalty g) ->
  statistics R e (l ++ [(false, u1)]) = Some s1 -> statistics R e (l ++ [(false, u1)] ++ [(false, u2)]) = Some s ->
  (ema s == (1 # 10) * inject_Z (s_failurePenalty g * 1000000) + (9 # 10) * ema s1)%Q.
Proof. intros R w. exact (cfg_penalty w). Qed.
Print Assumptions C88_penalty.

(** Without it, a failure counts with its own time, and only if that makes the resolver look slower. *)
Theorem C88_no_penalty : forall (R : Type) (w : world R) g e l u s1 s,
  made w "load-balance" g = Some e -> s_failurePenalty g = 0%Z ->
  statistics R e l = Some s1 -> 0 < cnt s1 -> (1 <= u)%Z -> statistics R e (l ++ [(false, u)]) = Some s ->
  let x := ((1 # 10) * inject_Z u + (9 # 10) * ema s1)%Q in (ema s1 <= ema s)%Q /\ (x <= ema s)%Q /\ (ema s == ema s1 \/ ema s == x)%Q.
Proof. intros R w. exact (cfg_no_penalty w). Qed.
Print Assumptions C88_no_penalty.

(** The groups without other settings have the resolvers named, in their order. What they do is in C12, C17 and C20. *)
Theorem C88_resolvers : forall (R : Type) (w : world R) g e,
  (made w "round-robin" g = Some e -> exists gr, several w g gr /\ e = ERoundRobin R gr) /\
  (made w "fastest" g = Some e -> exists gr, several w g gr /\ e = EFastest R gr) /\
  (made w "request-dedup" g = Some e -> exists up, only w g up /\ e = EDedup R up).
Proof. intros R w. exact (cfg_members w). Qed.
Print Assumptions C88_resolvers.

Local Open Scope string_scope.
Local Open Scope list_scope.
(** A world with three resolvers: "a" answers, "b" answers truncated, "c" fails *)
Definition ex_answer (r : nat) (q : msg) (ci : client) : result :=
  match r with
  | 2%nat => Err "down"
  | _ => Ans (Msg (m_id q) true 0 false (Nat.eqb r 1) true true false false 0 (m_question q)
                [RR "w.a." 5 1 300 (DCNAME "b."); RR "b." 1 1 60 (DA [192;0;2;33]%N)] [RR "a." 2 1 10 (DNS "ns.a.")] [])
  end.
Definition ex_w : world nat :=
  World nat (fun n => if String.eqb n "a" then Some 0%nat else if String.eqb n "b" then Some 1%nat else if String.eqb n "c" then Some 2%nat else None)
    ex_answer (fun from => if String.eqb from "(" then None else Some (fun to n => if String.eqb n from then to else n))
    (fun s => if String.eqb s "bad" then None else Some (Some (RR s 1 1 5 (DA [192;0;2;1]%N)))) (fun s => Some (fun i => Some s)) (fun s => Some (fun _ _ => Some s))
    Dns64_proofs.d64_parse (fun n => 0%N) (fun _ l => map (fun i => (i, true)) (rev (seq 0 (length (filter (fun r => N.eqb (rr_type r) 1) l))))) (fun _ => "IN") (fun _ => "A").
Definition ex_g : settings :=
  Settings ["a"] [("w.a.", "v.a.")] "add" [] 24 56 100 200 "lowest" "add" 65001 [7]%N None true false 5 ["x."] [] [] 3 15 "why" true
    2 0 0 0 "c" 0 true 30 3 "c" [].
Definition with_resolvers (l : list string) (g : settings) : settings :=
  Settings l (s_replace g) (s_ecsOp g) (s_ecsAddress g) (s_ecsPrefix4 g) (s_ecsPrefix6 g) (s_ttlMin g) (s_ttlMax g) (s_ttlSelect g) (s_edns0Op g) (s_edns0Code g) (s_edns0Data g)
    (s_resetAfter g) (s_servfailError g) (s_emptyError g) (s_failurePenalty g) (s_answer g) (s_ns g) (s_extra g) (s_rcode g) (s_edeCode g) (s_edeText g) (s_truncate g)
    (s_requests g) (s_window g) (s_prefix4 g) (s_prefix6 g) (s_limitResolver g) (s_port g) (s_waitAll g) (s_successTTLMin g) (s_nullRCode g) (s_retryResolver g) (s_dns64Prefix g).
Definition ex_types : list string :=
  ["round-robin"; "fail-rotate"; "fail-back"; "fastest"; "load-balance"; "random"; "replace"; "ttl-modifier"; "truncate-retry"; "request-dedup"; "fastest-tcp";
   "ecs-modifier"; "edns0-modifier"; "static-responder"; "static-template"; "response-minimize"; "response-collapse"; "drop"; "rate-limiter"; "dns64"].
Definition ex_q : msg := Msg 7 false 0 false false true false false false 0 [Dns.Q "w.a." 1 1] [] [] [].
Definition ex_ci : client := Client [10;1;2;3]%N "" "" "".
Definition ex_run (type : string) (g : settings) :=
  match made ex_w type g with
  | Some e => option_map (fun r => (map (fun x => (fst x, map q_name (m_question (snd x)), map rr_data (m_extra (snd x)))) (fst r),
                                   match snd r with Ans m => Some (m_rcode m, map (fun r => (rr_name r, rr_ttl r)) (m_answer m), length (m_ns m)) | _ => None end)) (does ex_w e ex_q ex_ci)
  | None => None
  end.
Example C88_ex_parse : parse_ok (w_addr ex_w).
Proof. exact Dns64_proofs.d64_parse_ok. Qed.
(** All are made with one resolver; with two only those for several, and the ones that do not look at their number; with one that does not exist none *)
Example C88_ex_starts :
  map (fun t => has (made ex_w t ex_g)) ex_types = repeat true 20 /\
  filter (fun t => has (made ex_w t (with_resolvers ["a"; "b"] ex_g))) ex_types =
    ["round-robin"; "fail-rotate"; "fail-back"; "fastest"; "load-balance"; "random"; "static-responder"; "static-template"; "drop"] /\
  filter (fun t => has (made ex_w t (with_resolvers ["z"] ex_g))) ex_types = [] /\ made ex_w "no-type" ex_g = None.
Proof. vm_compute. repeat split. Qed.
Example C88_ex_run :
  ex_run "ttl-modifier" ex_g = Some ([(0%nat, ["w.a."], [])], Some (0%N, [("w.a.", 100%N); ("b.", 100%N)], 1%nat)) /\
  ex_run "ecs-modifier" ex_g = Some ([(0%nat, ["w.a."], [DOPT [ECS 1 24 0 [10;1;2;0]%N]])], Some (0%N, [("w.a.", 300%N); ("b.", 60%N)], 1%nat)) /\
  ex_run "edns0-modifier" ex_g = Some ([(0%nat, ["w.a."], [DOPT [LOCAL 65001 [7]%N]])], Some (0%N, [("w.a.", 300%N); ("b.", 60%N)], 1%nat)) /\
  ex_run "truncate-retry" (with_resolvers ["b"] ex_g) = Some ([(1%nat, ["w.a."], []); (2%nat, ["w.a."], [])], None) /\
  ex_run "response-minimize" ex_g = Some ([(0%nat, ["w.a."], [])], Some (0%N, [("w.a.", 300%N); ("b.", 60%N)], 0%nat)) /\
  ex_run "drop" ex_g = Some ([], None).
Proof. vm_compute. repeat split. Qed.
Example C88_ex_replace : option_map fst (ex_run "replace" ex_g) = Some [(0%nat, ["v.a."], [])].
Proof. vm_compute. reflexivity. Qed.
(** Two queries in a minute, the third goes to the resolver for those over the limit *)
Example C88_ex_rate :
  option_map (fun e => rate nat RateLimit_proofs2.demo_text e [(61%Z, [10;1;2;3]%N); (62%Z, [10;1;2;4]%N); (63%Z, [10;1;2;5]%N); (64%Z, [10;1;9;5]%N); (121%Z, [10;1;2;3]%N)]%list) (made ex_w "rate-limiter" ex_g) =
  Some [Some (Some 0); Some (Some 0); Some (Some 2); Some (Some 0); Some (Some 0)]%nat /\ ip_text RateLimit_proofs2.demo_text.
Proof. split; [vm_compute; reflexivity|exact RateLimit_proofs2.demo_text_ok]. Qed.
Example C88_ex_reset : short (match s_resetAfter ex_g with None => 60%Z | Some n => n end) /\ reset ex_g = 60000000000%Z /\ short (s_failurePenalty ex_g).
Proof. unfold short. cbn. repeat split; discriminate. Qed.
(** A SERVFAIL of the first resolver is a failure with servfail-error: the second one is asked *)
Definition ex_two := with_resolvers ["c"; "a"] ex_g.
Example C88_ex_rotate :
  match made ex_w "fail-rotate" ex_two with
  | Some e => option_map (fun s => (g_pc s 0%nat, g_active s))
      (failrotate_run nat e [Call 0; Sent 0 0; Reply 0 (Ans (set_rcode (set_reply empty_msg ex_q) ex_q 2)); Failed 0; Sent 0 1; Reply 0 Drop]%nat)
  | None => None
  end = Some (Returned Drop, 1%nat).
Proof. vm_compute. reflexivity. Qed.
(** Two failures of one millisecond each, with a penalty of five seconds *)
Example C88_ex_penalty :
  match made ex_w "load-balance" ex_two with
  | Some e => option_map (fun s => Qred (ema s)) (statistics nat e [(true, 1000); (false, 1000); (false, 1000)]%Z)
  | None => None
  end = Some (Qred ((1 # 10) * inject_Z 5000000 + (9 # 10) * inject_Z 1000)).
Proof. vm_compute. reflexivity. Qed.
