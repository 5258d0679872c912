(** Specification of routes in terms of the configuration text. Of the model only the record types
    routecfg, routeentry and localtime are used. *)
From Verif Require Import Base Bytes Dns Cidr_spec Net_spec Router_model.
Local Open Scope Z_scope.

(** Decimal numbers with an optional sign *)
Definition signed (s : string) (v : Z) : Prop :=
  exists n, (decimal s n /\ v = Z.of_N n) \/
            (exists d, s = String "+" d /\ decimal d n /\ v = Z.of_N n) \/
            (exists d, s = String "-" d /\ decimal d n /\ v = - Z.of_N n).

(** Times of day: hour, or hour:minute *)
Definition time_text (s : string) (h m : Z) : Prop :=
  0 <= h <= 23 /\ 0 <= m <= 59 /\
  ((contains ":" s = false /\ signed s h /\ m = 0) \/
   (exists a b, s = (a ++ String ":" b)%string /\ contains ":" a = false /\ signed a h /\ signed b m)).

(** Names of classes (in any letter case) and of weekdays *)
Definition class_text (s : string) (c : N) : Prop :=
  In (lower s, c) [("in", 1); ("inet", 1); ("ch", 3); ("hs", 4); ("none", 254); ("any", 255)]%N%string.
Definition day_text (s : string) (d : N) : Prop :=
  In (s, d) [("sun", 0); ("mon", 1); ("tue", 2); ("wed", 3); ("thu", 4); ("fri", 5); ("sat", 6)]%N%string.

(** The client-subnet address of a query: that of the last such option of its EDNS0 record *)
Definition subnet_addr (q : msg) (a : bytes) : Prop :=
  exists pre r post l o l', m_extra q = pre ++ r :: post /\ rr_type r = 41%N /\ Forall (fun x => rr_type x <> 41%N) post /\
    rr_data r = DOPT (l ++ o :: l') /\ (exists f m s, o = ECS f m s a) /\ Forall (fun o => forall f m s a, o <> ECS f m s a) l'.

(** *** The conditions of a configured route *)
Section Conditions.
(** What regular expressions match, what addresses are, how types are named *)
Variable compile : string -> option (string -> bool).
Variable parseAddr : string -> option bytes.
Variable typeByName : string -> option N.

Definition matches (re s : string) : Prop := exists f, compile re = Some f /\ f s = true.
Definition minutes (h m : Z) : Z := 60 * h + m.

Record conditions (types : list string) (class name source ecs dohpath listener tls : string) (weekdays : list string) (before after : string)
  (weekday : N) (hour minute : Z) (x : question) (q : msg) (ci : client) : Prop := {
  c_type : types = [] \/ exists t, In t types /\ typeByName (upper t) = Some (q_type x);
  c_class : class = EmptyString \/ class_text class (q_class x);
  c_name : matches name (q_name x);
  c_source : source = EmptyString \/ exists a p, net_text parseAddr source a p /\ ci_ip ci <> [] /\ net_has a p (ci_ip ci);
  c_ecs : ecs = EmptyString \/ exists a p y, net_text parseAddr ecs a p /\ subnet_addr q y /\ y <> [] /\ net_has a p y;
  c_dohpath : matches dohpath (ci_dohpath ci);
  c_listener : matches listener (ci_listener ci);
  c_tls : matches tls (ci_tlsserver ci);
  c_weekday : weekdays = [] \/ exists d, In d weekdays /\ day_text d weekday;
  c_before : before = EmptyString \/ exists h m, time_text before h m /\ minutes hour minute < minutes h m;
  c_after : after = EmptyString \/ exists h m, time_text after h m /\ minutes h m <= minutes hour minute }.

(** The entry of the configuration at position i takes the query, at the time it is looked at. *)
Definition takes (now : nat -> localtime) (q : msg) (ci : client) (x : question) (i : nat) (e : routeentry) : Prop :=
  let c := re_cfg e in
  let C := conditions (match re_type e with EmptyString => rc_types c | t => rc_types c ++ [t] end)
    (rc_class c) (rc_name c) (rc_source c) (rc_ecs c) (rc_dohpath c) (rc_listener c) (rc_tls c)
    (rc_weekdays c) (rc_before c) (rc_after c) (lt_weekday (now i)) (lt_hour (now i)) (lt_minute (now i)) x q ci in
  if re_invert e then ~ C else C.
End Conditions.
