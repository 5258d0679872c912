(** The router: route.go and router.go. *)
From Verif Require Import Base Bytes Dns Net Cidr_model.
Local Open Scope Z_scope.

(** strconv.Atoi: optional sign, decimal digits, 64-bit range *)
Fixpoint atoi_digits (acc : Z) (s : string) : option Z :=
  match s with
  | EmptyString => Some acc
  | String c s' => match digit c with Some d => atoi_digits (acc * 10 + Z.of_N d) s' | None => None end
  end.
Definition atoi_unsigned (s : string) : option Z := match s with EmptyString => None | _ => atoi_digits 0 s end.
Definition atoi (s : string) : option Z :=
  let r := match s with
           | EmptyString => None
           | String c s' => if Ascii.eqb c "-" then option_map Z.opp (atoi_unsigned s')
                            else if Ascii.eqb c "+" then atoi_unsigned s'
                            else atoi_unsigned s
           end in
  match r with
  | Some v => if (- 2^63 <=? v) && (v <? 2^63) then Some v else None
  | None => None
  end.

(** strings.SplitN(t, ":", 2): the part before the first colon, and the rest if there is one *)
Fixpoint cut_colon (s : string) : string * option string :=
  match s with
  | EmptyString => (EmptyString, None)
  | String c s' => if Ascii.eqb c ":" then (EmptyString, Some s')
                   else let '(a, b) := cut_colon s' in (String c a, b)
  end.

(** route.go:320-322 TimeOfDay *)
Record timeofday := TimeOfDay { tod_hour : Z; tod_minute : Z }.

(** route.go:324-350 parseTimeOfDay; [Some None] is nil without an error, [None] an error. *)
Definition parseTimeOfDay (t : string) : option (option timeofday) :=
  if String.eqb t "" then Some None
  else let '(f0, f1) := cut_colon t in
       match atoi f0 with
       | None => None
       | Some hour =>
           if (hour <? 0) || (23 <? hour) then None
           else match f1 with
                | None => Some (Some (TimeOfDay hour 0))
                | Some f1 =>
                    match atoi f1 with
                    | None => None
                    | Some min => if (min <? 0) || (59 <? min) then None else Some (Some (TimeOfDay hour min))
                    end
                end
       end.

(** route.go:352-354 isBefore, 356-358 isAfter *)
Definition isBefore (t : timeofday) (hour minute : Z) : bool :=
  (tod_hour t <? hour) || ((tod_hour t =? hour) && (tod_minute t <=? minute)).
Definition isAfter (t : timeofday) (hour minute : Z) : bool :=
  (hour <? tod_hour t) || ((tod_hour t =? hour) && (minute <? tod_minute t)).

(** route.go:256-273 stringToClass *)
Definition stringToClass (s : string) : option N :=
  let u := upper s in
  if String.eqb u "" then Some 0%N
  else if String.eqb u "IN" || String.eqb u "INET" then Some 1%N
  else if String.eqb u "CH" then Some 3%N
  else if String.eqb u "HS" then Some 4%N
  else if String.eqb u "NONE" then Some 254%N
  else if String.eqb u "ANY" then Some 255%N
  else None.

(** route.go:293-318 stringsToWeekdays; time.Weekday counts from Sunday = 0 *)
Definition weekday_of (day : string) : option N :=
  if String.eqb day "mon" then Some 1%N else if String.eqb day "tue" then Some 2%N
  else if String.eqb day "wed" then Some 3%N else if String.eqb day "thu" then Some 4%N
  else if String.eqb day "fri" then Some 5%N else if String.eqb day "sat" then Some 6%N
  else if String.eqb day "sun" then Some 0%N else None.
Fixpoint all_some {A B} (f : A -> option B) (l : list A) : option (list B) :=
  match l with
  | [] => Some []
  | x :: l' => match f x with
               | Some y => match all_some f l' with Some r => Some (y :: r) | None => None end
               | None => None
               end
  end.
Definition stringsToWeekdays (l : list string) : option (list N) := all_some weekday_of l.

(** route.go:16-30 type route; compiled regular expressions are predicates. *)
Record route := Route {
  r_types : list N; r_class : N; r_name : string -> bool; r_source : option ipnet; r_ecs : option ipnet;
  r_weekdays : list N; r_before : option timeofday; r_after : option timeofday; r_inverted : bool;
  r_dohpath : string -> bool; r_listener : string -> bool; r_tls : string -> bool; r_resolver : nat }.

(** The parameters of NewRoute *)
Record routecfg := RouteCfg {
  rc_name : string; rc_class : string; rc_types : list string; rc_weekdays : list string;
  rc_before : string; rc_after : string; rc_source : string; rc_ecs : string;
  rc_dohpath : string; rc_listener : string; rc_tls : string; rc_resolver : nat }.

Section New.
(** regexp.Compile and MatchString, netip.ParseAddr, and the inverse of dns.TypeToString *)
Variable compile : string -> option (string -> bool).
Variable parseAddr : string -> option bytes.
Variable typeByName : string -> option N.

(** route.go:237-253 stringToType *)
Definition stringToType (l : list string) : option (list N) := all_some (fun t => typeByName (upper t)) l.

(** The network of net.ParseCIDR as a net.IPNet *)
Definition parse_net (s : string) : option ipnet :=
  match parseCIDR parseAddr s with
  | Some (_, c) => Some (IPNet (c_ip c) (mask_bytes (c_ones c) (Nat.div (c_bits c) 8)))
  | None => None
  end.
Definition parse_net_opt (s : string) : option (option ipnet) :=
  if String.eqb s "" then Some None else option_map Some (parse_net s).

(** route.go:33-101 NewRoute with a resolver *)
Definition newRoute (c : routecfg) : option route :=
  match stringToType (rc_types c) with None => None | Some t =>
  match stringsToWeekdays (rc_weekdays c) with None => None | Some w =>
  match parseTimeOfDay (rc_before c) with None => None | Some b =>
  match parseTimeOfDay (rc_after c) with None => None | Some a =>
  match stringToClass (rc_class c) with None => None | Some cl =>
  match compile (rc_name c) with None => None | Some re =>
  match compile (rc_dohpath c) with None => None | Some dohRe =>
  match compile (rc_listener c) with None => None | Some listenerRe =>
  match compile (rc_tls c) with None => None | Some tlsRe =>
  match parse_net_opt (rc_source c) with None => None | Some sNet =>
  match parse_net_opt (rc_ecs c) with None => None | Some ecsNet =>
    Some (Route t cl re sNet ecsNet w b a false dohRe listenerRe tlsRe (rc_resolver c))
  end end end end end end end end end end end.
End New.

(** route.go:173-175 Invert *)
Definition invert (v : bool) (r : route) : route :=
  Route (r_types r) (r_class r) (r_name r) (r_source r) (r_ecs r) (r_weekdays r) (r_before r) (r_after r) v
        (r_dohpath r) (r_listener r) (r_tls r) (r_resolver r).

(** route.go:229-234 matchType *)
Definition matchType (r : route) (typ : N) : bool :=
  match r_types r with [] => true | l => existsb (N.eqb typ) l end.

(** route.go:117-138, the address of the last client-subnet option; [] is nil. *)
Definition last_ecs (opts : list edns0) : bytes :=
  fold_left (fun ip o => match o with ECS _ _ _ addr => addr | _ => ip end) opts [].
Definition ecs_ip (q : msg) : bytes := match is_edns0 q with Some o => last_ecs (opt_options o) | None => [] end.

(** time.Now().Local(), as far as match reads it *)
Record localtime := LocalTime { lt_weekday : N; lt_hour : Z; lt_minute : Z }.

(** route.go:103-171 match; [None] is the panic without a question. *)
Definition route_match (r : route) (now : localtime) (q : msg) (ci : client) : option bool :=
  match m_question q with
  | [] => None
  | x :: _ =>
      Some (
      if negb (matchType r (q_type x)) then r_inverted r
      else if negb (N.eqb (r_class r) 0) && negb (N.eqb (r_class r) (q_class x)) then r_inverted r
      else if negb (r_name r (q_name x)) then r_inverted r
      else if match r_source r with Some n => negb (ipnet_contains n (ci_ip ci)) | None => false end then r_inverted r
      else if match r_ecs r with
              | Some n => let ecsIP := ecs_ip q in Nat.eqb (length ecsIP) 0 || negb (ipnet_contains n ecsIP)
              | None => false
              end then r_inverted r
      else if negb (r_dohpath r (ci_dohpath ci)) then r_inverted r
      else if negb (r_listener r (ci_listener ci)) then r_inverted r
      else if negb (r_tls r (ci_tlsserver ci)) then r_inverted r
      else if match r_weekdays r with [] => false | l => negb (existsb (N.eqb (lt_weekday now)) l) end then r_inverted r
      else if match r_before r with Some t => negb (isAfter t (lt_hour now) (lt_minute now)) | None => false end then r_inverted r
      else if match r_after r with Some t => negb (isBefore t (lt_hour now) (lt_minute now)) | None => false end then r_inverted r
      else negb (r_inverted r))
  end.

(** router.go:47-66 Resolve. [now i] is the time when route i is looked at. The result is the
    list of resolvers queried, with the query each got, and what is returned; [None] is a panic. *)
Section Resolve.
Variable resolve : nat -> msg -> client -> result.
Variable now : nat -> localtime.
Fixpoint resolve_from (i : nat) (routes : list route) (q : msg) (ci : client) : option (list (nat * msg) * result) :=
  match routes with
  | [] => Some ([], Err "no route")
  | r :: rest =>
      match route_match r (now i) q ci with
      | None => None
      | Some false => resolve_from (S i) rest q ci
      | Some true => Some ([(r_resolver r, q)], resolve (r_resolver r) q ci)
      end
  end.
Definition router_resolve (routes : list route) (q : msg) (ci : client) : option (list (nat * msg) * result) :=
  match m_question q with [] => None | _ => resolve_from 0 routes q ci end.
End Resolve.

(** cmd/routedns/main.go:1088-1108 instantiateRouter: one route per entry, in order, inverted as
    configured; the deprecated 'type' is appended to 'types'. *)
Record routeentry := RouteEntry { re_cfg : routecfg; re_type : string; re_invert : bool }.
Definition entry_cfg (e : routeentry) : routecfg :=
  let c := re_cfg e in
  RouteCfg (rc_name c) (rc_class c) (if String.eqb (re_type e) "" then rc_types c else rc_types c ++ [re_type e]) (rc_weekdays c)
    (rc_before c) (rc_after c) (rc_source c) (rc_ecs c) (rc_dohpath c) (rc_listener c) (rc_tls c) (rc_resolver c).
Definition instantiateRouter compile parseAddr typeByName (l : list routeentry) : option (list route) :=
  all_some (fun e => option_map (invert (re_invert e)) (newRoute compile parseAddr typeByName (entry_cfg e))) l.
