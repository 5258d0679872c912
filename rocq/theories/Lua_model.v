(** The Lua element: lua.go, lua-script.go. Quantified: what a script does. Library behaviour (gopher-lua) written down from memory of its
    documentation and source: CallByParam with Protect leaves NRet values on the stack on success and nothing on an error; a script's
    stack has a fixed size and pushing beyond it outside of a protected call panics. *)
From Verif Require Import Base Bytes Dns.

(** A value in Lua: nil, user data, string, any other type (number, boolean, table, function). User data holds a message, an error or
    something else. *)
Inductive udata := UMsg (m : msg) | UErr (e : string) | UOther.
Inductive lvalue := LNil | LUser (u : udata) | LStr (s : string) | LOther.
(** A Go value of type any after conversion *)
Inductive gvalue := GNil | GUser (u : udata) | GStr (s : string).
(** lua-script.go:108-119 conversion of a value; None is "unsupported return type" *)
Definition convert (v : lvalue) : option gvalue :=
  match v with LNil => Some GNil | LUser u => Some (GUser u) | LStr s => Some (GStr s) | LOther => None end.

(** The result of Resolve: answer and error, either of which can be nil *)
Definition lresult : Type := option msg * option string.

Section Script.
(** State of a script (its globals), and what calling its function Resolve does: the state after it, and an error or the two results *)
Variable state : Type.
Variable exec : state -> msg -> client -> state * (string + lvalue * lvalue).
(** Size of the stack *)
Variable size : nat.

(** A script: state and stack, top first *)
Record script := Script { sc_state : state; sc_stack : list lvalue }.

(** lua-script.go:102-122 the loop that pops n values, last first; acc is what is already in ret. inl: an error. *)
Fixpoint pops (n : nat) (stack : list lvalue) (acc : list gvalue) : list lvalue * (string + list gvalue) :=
  match n with
  | O => (stack, inr acc)
  | S n' =>
      let v := match stack with [] => LNil | v :: _ => v end in
      match convert v with
      | None => (tl stack, inl "unsupported return type"%string)
      | Some g => pops n' (tl stack) (g :: acc)
      end
  end.
(** lua-script.go:77-116 Call with nret = 2. Function and two arguments are pushed first. None: panic. *)
Definition Call (s : script) (q : msg) (ci : client) : option (script * (string + list gvalue)) :=
  if Nat.ltb size (length (sc_stack s) + 3) then None
  else
    let '(st, out) := exec (sc_state s) q ci in
    match out with
    | inl e => Some (Script st (sc_stack s), inl e)
    | inr (v1, v2) =>
        let '(stack, r) := pops 2 (v2 :: v1 :: sc_stack s) [] in
        Some (Script st stack, r)
    end.
(** lua.go:70-85 the checks of the returned values *)
Definition extract (ret : list gvalue) : lresult :=
  match ret with
  | [r0; r1] =>
      let answer := match r0 with GUser (UMsg m) => Some m | _ => None end in
      match r0, answer with
      | GNil, _ | _, Some _ =>
          let err := match r1 with GUser (UErr e) => Some e | _ => None end in
          match r1, err with
          | GNil, _ | _, Some _ => (answer, err)
          | _, _ => (None, Some "invalid return value, expected Error"%string)
          end
      | _, _ => (None, Some "invalid return value, expected Message"%string)
      end
  | _ => (None, Some "invalid return value, expected 2"%string)
  end.
(** lua.go:57-86 Resolve with the script s. None: panic. *)
Definition resolve (s : script) (q : msg) (ci : client) : option (script * lresult) :=
  match Call s q ci with
  | None => None
  | Some (s', inl e) => Some (s', (None, Some e))
  | Some (s', inr ret) => Some (s', extract ret)
  end.
(** The queries one script gets one after another *)
Fixpoint resolves (s : script) (l : list (msg * client)) : option (script * list lresult) :=
  match l with
  | [] => Some (s, [])
  | (q, ci) :: l' =>
      match resolve s q ci with
      | None => None
      | Some (s', r) => match resolves s' l' with None => None | Some (s'', rs) => Some (s'', r :: rs) end
      end
  end.
End Script.

(** lua-resolver.go:30-62 resolverResolve, called with a resolver, a message and client information: the two values it returns *)
Definition resolverResolve (up : msg -> client -> lresult) (q : msg) (ci : client) : lvalue * lvalue :=
  let '(resp, err) := up q ci in
  (match resp with None => LNil | Some m => LUser (UMsg m) end, match err with None => LNil | Some e => LUser (UErr e) end).

(** ** The pool of scripts, lua.go:28-55, 58-59, 93-98 *)
(** Scripts are numbers. Content of the channel, its capacity, whether it is closed, who has which script (number of the query), which scripts were
    closed, whether a goroutine panicked *)
Record pool := Pool { p_idle : list nat; p_cap : nat; p_closed : bool; p_used : list (nat * nat); p_shut : list nat; p_panic : bool }.
(** NewLua: default of 4, that many scripts are put into the channel *)
Definition concurrency (opt : nat) : nat := if Nat.eqb opt 0 then 4 else opt.
Definition newPool (opt : nat) : pool := Pool (seq 0 (concurrency opt)) (concurrency opt) false [] [] false.
Inductive pact :=
| Take (r : nat)       (* s := <-r.scripts *)
| Give (r : nat)       (* the deferred r.scripts <- s *)
| Close.               (* Close: close(r.scripts) and the loop *)
(** None: the goroutine waits (or there is no such query) *)
Definition pstep (p : pool) (a : pact) : option pool :=
  if p_panic p then None
  else match a with
  | Take r =>
      match p_idle p with
      | s :: l => Some (Pool l (p_cap p) (p_closed p) ((r, s) :: p_used p) (p_shut p) false)
      | [] => if p_closed p then Some (Pool [] (p_cap p) true (p_used p) (p_shut p) true) else None (* nil script from a closed channel *)
      end
  | Give r =>
      match find (fun x => Nat.eqb (fst x) r) (p_used p) with
      | None => None
      | Some (_, s) =>
          if p_closed p then Some (Pool (p_idle p) (p_cap p) true (p_used p) (p_shut p) true) (* send on closed channel *)
          else if Nat.ltb (length (p_idle p)) (p_cap p)
               then Some (Pool (p_idle p ++ [s]) (p_cap p) false (filter (fun x => negb (Nat.eqb (fst x) r)) (p_used p)) (p_shut p) false)
               else None
      end
  | Close =>
      if p_closed p then Some (Pool (p_idle p) (p_cap p) true (p_used p) (p_shut p) true) (* close of closed channel *)
      else Some (Pool [] (p_cap p) true (p_used p) (p_shut p ++ p_idle p) false)
  end.
(** A query number is used for one query only. *)
Fixpoint pruns (p : pool) (l : list pact) : option pool :=
  match l with
  | [] => Some p
  | a :: l' =>
      match a with
      | Take r => if existsb (fun x => Nat.eqb (fst x) r) (p_used p) then None else match pstep p a with Some p' => pruns p' l' | None => None end
      | _ => match pstep p a with Some p' => pruns p' l' | None => None end
      end
  end.

(** ** The sandbox, lua-script.go:34-76 *)
Inductive lib := BaseLib | TabLib | StringLib | MathLib | CoroutineLib | OtherLib (name : string).
Section Sandbox.
(** The globals a library defines, and the libraries a state has without SkipOpenLibs *)
Variable provides : lib -> list string.
Variable all_libs : list lib.
(** lua-script.go:50-71 openSandboxedLibs: global names afterwards *)
Definition openSandboxedLibs : list string :=
  let g := flat_map provides [BaseLib; TabLib; StringLib; MathLib; CoroutineLib] in
  filter (fun n => negb (existsb (String.eqb n) ["dofile"; "loadfile"; "load"; "loadstring"; "module"; "require"]%string)) g.
(** lua-script.go:36-47: the globals the script's chunk is run with *)
Definition chunk_globals (sandbox : bool) : list string := if sandbox then openSandboxedLibs else flat_map provides all_libs.
End Sandbox.
