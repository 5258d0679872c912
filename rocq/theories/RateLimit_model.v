(** rate-limiter.go: the fixed-window rate limiter. *)
From Verif Require Import Base Bytes Net Modifiers_model.
Open Scope N_scope.

(** rate-limiter.go:26-33 RateLimiterOptions: requests (uint), window (uint), prefix lengths (uint8) *)
Record rl_opts := RlOpts { rl_requests : N; rl_window : N; rl_prefix4 : N; rl_prefix6 : N }.

(** rate-limiter.go:44-53 NewRateLimiter: defaults *)
Definition rl_defaults (o : rl_opts) : rl_opts :=
  RlOpts (rl_requests o) (if rl_window o =? 0 then 60 else rl_window o)
         (if rl_prefix4 o =? 0 then 24 else rl_prefix4 o) (if rl_prefix6 o =? 0 then 56 else rl_prefix6 o).

(** rate-limiter.go:12-24 the state under the mutex: currWinID and counters. A nil map is [None]; an
    absent key counts zero, as the code puts new(uint) there before using it. *)
Record rl_state := Rl { rl_cur : Z; rl_counters : option (string -> N) }.
(** rate-limiter.go:54-63 the zero values *)
Definition rl_init : rl_state := Rl 0 None.

(** What becomes of the query: given to the resolver, or rejected (given to the limit resolver when there
    is one, dropped otherwise); [RlPanic] is the assignment to a nil map. *)
Inductive rl_out := RlForward | RlLimit | RlDrop | RlPanic.

Section RateLimit.
Variable ipString : bytes -> string.  (* net.IP.String *)

(** rate-limiter.go:70-77 the key *)
Definition rl_key (o : rl_opts) (source : bytes) : string :=
  ipString (match to4 source with
            | Some _ => ip_mask source (cidr_mask (rl_prefix4 o) 4)
            | None => ip_mask source (cidr_mask (rl_prefix6 o) 16)
            end).

(** rate-limiter.go:80 windowID: Unix seconds divided by the window, both int64, truncated towards zero *)
Definition rl_window_id (o : rl_opts) (now : Z) : Z := Z.quot now (Z.of_N (rl_window o)).

(** rate-limiter.go:83-104 the section under the mutex *)
Definition rl_count (o : rl_opts) (key : string) (windowID : Z) (s : rl_state) : option (rl_state * bool) :=
  let s := if Z.eqb windowID (rl_cur s) then s else Rl windowID (Some (fun _ => 0)) in
  match rl_counters s with
  | None => None
  | Some c =>
      let v := c key in
      let c := fun k => if String.eqb k key then (v + 1) mod 2 ^ 64 else c k in
      Some (Rl (rl_cur s) (Some c), rl_requests o <=? v)
  end.

(** rate-limiter.go:66-118 Resolve, [limit]: LimitResolver is set *)
Definition rl_resolve (o : rl_opts) (limit : bool) (source : bytes) (now : Z) (s : rl_state) : rl_state * rl_out :=
  match rl_count o (rl_key o source) (rl_window_id o now) s with
  | None => (s, RlPanic)
  | Some (s', reject) => (s', if reject then if limit then RlLimit else RlDrop else RlForward)
  end.

(** The queries in the order in which they take the mutex, each with the time read before. *)
Fixpoint rl_run (o : rl_opts) (limit : bool) (h : list (Z * bytes)) (s : rl_state) : list rl_out :=
  match h with
  | [] => []
  | (now, source) :: h' => let '(s', r) := rl_resolve o limit source now s in r :: rl_run o limit h' s'
  end.
End RateLimit.
