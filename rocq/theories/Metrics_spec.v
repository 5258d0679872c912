(** What the counters are to show, in terms of what the calls did. *)
From Coq Require Import Permutation.
From Verif Require Import Base Bytes Dns Net Cidr_model Lists_model Metrics_model.
From Verif Require Blocklist_model RateLimit_model Cache_model Listener_model Groups_model Groups_spec Dnssec_model.
Local Open Scope string_scope.
Local Open Scope bool_scope.
Local Open Scope nat_scope.

Definition bump_eqb (a b : bump) : bool := String.eqb (fst a) (fst b) && String.eqb (snd a) (snd b).
(** The value of a counter, or of one key of it, after these additions *)
Definition times (b : bump) (log : list bump) : nat := length (filter (bump_eqb b) log).
(** All keys of a counter *)
Definition named (n : string) (log : list bump) : nat := length (filter (fun b => String.eqb n (fst b)) log).
Definition one (b : bool) : nat := if b then 1 else 0.
Definition number {A} (f : A -> bool) (l : list A) : nat := length (filter f l).
(** For any calls, whatever the order in which their additions are made, the counter is the number of the calls with property f. *)
Definition shows {A} (bumps : A -> list bump) (b : bump) (f : A -> bool) : Prop :=
  forall calls log, Permutation log (flat_map bumps calls) -> times b log = number f calls.
Definition shows_named {A} (bumps : A -> list bump) (n : string) (f : A -> bool) : Prop :=
  forall calls log, Permutation log (flat_map bumps calls) -> named n log = number f calls.

Definition none {A} (l : list A) : bool := match l with [] => true | _ => false end.

(** ** Listeners *)
Section Listeners.
Import Listener_model.
(** The resolver was called and had an error. *)
Definition failed (resolve : msg -> client -> result) (r : list event * lout) : bool :=
  existsb (fun e => match e with Call q ci => match resolve q ci with Err _ => true | _ => false end | Handshake => false end) (fst r).
Definition called (r : list event * lout) : bool := existsb (fun e => match e with Call _ _ => true | Handshake => false end) (fst r).
(** The code of the reply: REFUSED if no resolver was called, SERVFAIL if it failed, else that of the resolver's answer *)
Definition reply_code (resolve : msg -> client -> result) (r : list event * lout) : N :=
  match find (fun e => match e with Call _ _ => true | Handshake => false end) (fst r) with
  | Some (Call q ci) => match resolve q ci with Ans a => m_rcode a | _ => RcodeServerFailure end
  | _ => RcodeRefused
  end.
Definition closed (r : list event * lout) : bool := match snd r with Closed => true | _ => false end.
Definition crashed (r : list event * lout) : bool := match snd r with Crash => true | _ => false end.
Definition written (f : msg -> bool) (r : list event * lout) : bool := match snd r with Written m => f m | _ => false end.
Definition body (r : list event * lout) : bool := match snd r with Body _ => true | _ => false end.
Definition status (n : N) (r : list event * lout) : bool := match snd r with Status m => N.eqb m n | _ => false end.

Record dnscall := DnsCall { dc_resolve : msg -> client -> result; dc_src : bytes; dc_tls : string; dc_req : msg }.
Record dohcall := DohCall { hc_resolve : msg -> client -> result; hc_req : httpreq }.
Record doqcall := DoqCall { qc_resolve : msg -> client -> result; qc_client : client; qc_hs : handshake; qc_sent : bool; qc_data : bytes }.
(** The octets a request has for the DNS parser *)
Definition doh_message (base64dec : string -> option bytes) (r : httpreq) : option bytes :=
  if String.eqb (h_method r) "GET" then match h_dns r with s :: _ => base64dec s | [] => None end
  else if String.eqb (h_method r) "POST" then if Nat.leb (length (h_body r)) (N.to_nat 65535) && negb (h_broken r) then Some (h_body r) else None
  else None.
(** A message with a question *)
Definition asks (unpack : bytes -> option msg) (b : option bytes) : bool :=
  match b with None => false | Some b => match unpack b with None => false | Some q => negb (none (m_question q)) end end.
Definition garbled (unpack : bytes -> option msg) (b : option bytes) : bool :=
  match b with None => false | Some b => match unpack b with None => true | Some q => false end end.
Definition empty (unpack : bytes -> option msg) (b : option bytes) : bool :=
  match b with None => false | Some b => match unpack b with None => false | Some q => none (m_question q) end end.
End Listeners.

(** ** Blocklists: where a query went; answered by the blocklist or its own resolver *)
Section Block.
Import Blocklist_model.
Definition to_upstream (r : option (list (target * msg * client) * result)) : bool :=
  match r with Some ((Upstream, _, _) :: _, _) | Some ((AllowlistResolver, _, _) :: _, _) => true | _ => false end.
Definition to_block (r : option (list (target * msg * client) * result)) : bool :=
  match r with Some ((BlocklistResolver, _, _) :: _, _) | Some ([], _) => true | _ => false end.
End Block.

(** ** DNS64 *)
Definition d64_failed (resolve : msg -> result) (r : option (list msg * result)) : bool :=
  match r with Some (l, _) => existsb (fun m => is_err (resolve m)) l | None => false end.
(** AAAA queries without the DO bit *)
Definition d64_applies (q : msg) : bool :=
  match m_question q with
  | x :: _ => N.eqb (q_type x) TypeAAAA && negb (match is_edns0 q with Some o => opt_do o | None => false end)
  | [] => false
  end.
Definition has_aaaa (r : result) : bool := match r with Ans a => existsb (fun x => N.eqb (rr_type x) TypeAAAA) (m_answer a) | _ => false end.
(** the answer has AAAA records that the resolver's own answer did not have *)
Definition d64_made (resolve : msg -> result) (q : msg) (r : option (list msg * result)) : bool :=
  match r with Some (_, a) => has_aaaa a && negb (has_aaaa (resolve q)) | None => false end.

(** ** Rate limiter *)
Section Rate.
Import RateLimit_model.
Definition over (r : rl_out) : bool := match r with RlLimit | RlDrop => true | _ => false end.
Definition dropped (r : rl_out) : bool := match r with RlDrop => true | _ => false end.
End Rate.

(** ** Cache: not a message with many questions, and not the flush query *)
Definition cacheable (o : Cache_model.options) (q : msg) : bool :=
  match m_question q with
  | [] => true
  | [x] => String.eqb (Cache_model.o_flush o) "" || negb (String.eqb (Cache_model.o_flush o) (q_name x))
  | _ => false
  end.

(** ** Validator: a result that some answers of the resolver, the clock and the caches lead to *)
Section Yields.
Import Dnssec_model.
Inductive yields {R} : prog R -> R -> Prop :=
| y_ret r : yields (Ret r) r
| y_ask q k a r : yields (k a) r -> yields (Ask q k) r
| y_now k n r : yields (k n) r -> yields (Now k) r
| y_getkeys z k x r : yields (k x) r -> yields (GetKeys z k) r
| y_putkeys z l n k r : yields k r -> yields (PutKeys z l n k) r
| y_getds z k x r : yields (k x) r -> yields (GetDS z k) r
| y_shuffle l k x r : yields (k x) r -> yields (Shuffle l k) r.
End Yields.

(** ** Groups *)
Section Groups.
Import Groups_model Groups_spec.
(** The resolvers whose replies were bad, in the order of the replies *)
Fixpoint blamed (bad : result -> bool) (past l : list gevent) : list nat :=
  match l with
  | [] => []
  | e :: l' =>
      match e with
      | Reply t r => if bad r then match last_sent t past None with Some i => [i] | None => [] end else []
      | _ => []
      end ++ blamed bad (past ++ [e]) l'
  end.
Fixpoint dead_ends (l : list gevent) : nat :=
  match l with [] => 0 | NoneLeft _ :: l' => S (dead_ends l') | _ :: l' => dead_ends l' end.
(** Of the resolvers asked by a call one after the other, from the j-th attempt on, those that failed it *)
Fixpoint lb_bad (good : result -> bool) (up : nat -> nat -> result) (j : nat) (asked : list nat) : list nat :=
  match asked with [] => [] | i :: l => (if good (up j i) then [] else [i]) ++ lb_bad good up (S j) l end.
End Groups.

(** ** Names *)
Fixpoint has_dot (s : string) : bool :=
  match s with EmptyString => false | String c s' => Ascii.eqb c "."%char || has_dot s' end.
Fixpoint is_prefix (p s : string) : bool :=
  match p, s with EmptyString, _ => true | String a p', String b s' => Ascii.eqb a b && is_prefix p' s' | _, _ => false end.
(** The variables that other packages published *)
Definition foreign (r0 : registry) : Prop := forall m k, In (m, k) r0 -> is_prefix "routedns." m = false.
(** The names an operator finds at the admin listener: "routedns", a family, the id of the element and the name of the counter. Those of a kind, listed by counter. *)
Definition is_listener c := match c with CDNSListener | CDoHListener | CDoQListener => true | _ => false end.
Definition is_group c := match c with CRouter | CRoundRobin | CFail | CLoadBalance => true | _ => false end.
Definition talks c := match c with CClient => true | _ => is_listener c end.
Definition family c : string :=
  match c with
  | CClient => "client" | CCache | CRedis => "cache" | CDNSSEC => "dnssec" | CDNS64 => "dns64"
  | CBlocklist | CRateLimiter => "router"
  | _ => if is_group c then "router" else "listener"
  end.
(** Maps, with one number per label *)
Definition map_counter c (n : string) : Prop :=
  n = "response" /\ talks c = true \/ n = "error" /\ talks c = true \/
  n = "route" /\ is_group c = true \/ n = "failure" /\ is_group c = true \/ n = "rtt" /\ c = CLoadBalance.
Definition int_counter c (n : string) : Prop :=
  n = "query" /\ (talks c = true \/ c = CRateLimiter \/ c = CDNS64) \/
  n = "drop" /\ (talks c = true \/ c = CRateLimiter) \/
  n = "maxqueue" /\ (c = CClient \/ c = CDNSListener) \/
  (n = "get" \/ n = "post") /\ c = CDoHListener \/
  (n = "session" \/ n = "stream") /\ c = CDoQListener \/
  n = "available" /\ is_group c = true \/
  n = "failover" /\ (c = CFail \/ c = CLoadBalance) \/
  (n = "allow" \/ n = "deny") /\ c = CBlocklist \/
  n = "exceed" /\ c = CRateLimiter \/
  (n = "hit" \/ n = "miss" \/ n = "entries") /\ c = CCache \/
  n = "async-skipped" /\ c = CRedis \/
  (n = "validation-success" \/ n = "validation-failure") /\ c = CDNSSEC \/
  (n = "synth" \/ n = "passthru" \/ n = "err") /\ c = CDNS64.
Definition published c (id m : string) k : Prop := exists n,
  match k with KMap => map_counter c n | KInt => int_counter c n end /\
  m = "routedns" ++ "." ++ family c ++ "." ++ match c with CRedis => "redis" | _ => id end ++ "." ++ n.
