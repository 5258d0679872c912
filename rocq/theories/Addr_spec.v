(** Addresses of the form host:port or [host]:port. *)
From Verif Require Import Base Bytes Net Cidr_spec Net_spec.
Local Open Scope string_scope.

(** c does not occur in s *)
Definition without (c : ascii) (s : string) : Prop := forall a b, s <> a ++ String c b.
Definition hostport (s host port : string) : Prop :=
  (without ":" port /\ without "[" port /\ without "]" port /\ without "[" host /\ without "]" host) /\
  ((s = host ++ ":" ++ port /\ without ":" host) \/ s = "[" ++ host ++ "]:" ++ port).
(** The local address for a target of which the address may be known *)
Definition local_for (target : option bytes) (generic v4 v6 got : bytes) : Prop :=
  match target with
  | None => got = generic
  | Some ip =>
      (is_v4 ip -> (v4 <> [] -> got = v4) /\ (v4 = [] -> got = generic)) /\
      (~ is_v4 ip -> (v6 <> [] -> got = v6) /\ (v6 = [] -> got = generic))
  end.
(** An endpoint e followed by a template t, which starts with the first brace *)
Definition templated (addr e t : string) : Prop := addr = e ++ t /\ without "{" e /\ (t = "" \/ exists r, t = "{" ++ r).
