(** EDNS0 options in Lua: lua-edns0.go, the helpers of lua-helpers.go:29-75, and the choice of a metatable in lua-rr.go:398-414 and
    lua-opt.go:50-65. Library behaviour (miekg/dns) from memory of its documentation and source: the fields of the option types and what
    Option() returns. The field Code, which most of the types have, is left out but for EDNS0_LOCAL: the library does not use it. *)
From Verif Require Import Base Bytes Dns LuaVal_model LuaRR_model LuaMsg_model Addr_model.
Local Open Scope N_scope.

(** The option types. Padding and data are byte slices, which are strings in Lua; an address is [] if it is nil. *)
Inductive edns :=
| COOKIE (cookie : string) | DAU (alg : list N) | DHU (alg : list N) | EDE (info : N) (text : string) | ESU (uri : string)
| EXPIRE (expire : N) (empty : bool) | LLQ (version opcode error id lease : N) | LOCAL (code : N) (data : string) | N3U (alg : list N)
| NSID (nsid : string) | PADDING (padding : string) | SUBNET (family mask scope : N) (address : bytes) | KEEPALIVE (timeout len : N)
| UL (lease keylease : N).
Inductive okind := KCOOKIE | KDAU | KDHU | KEDE | KESU | KEXPIRE | KLLQ | KLOCAL | KN3U | KNSID | KPADDING | KSUBNET | KKEEPALIVE | KUL.
Definition kind_of (e : edns) : okind :=
  match e with
  | COOKIE _ => KCOOKIE | DAU _ => KDAU | DHU _ => KDHU | EDE _ _ => KEDE | ESU _ => KESU | EXPIRE _ _ => KEXPIRE | LLQ _ _ _ _ _ => KLLQ
  | LOCAL _ _ => KLOCAL | N3U _ => KN3U | NSID _ => KNSID | PADDING _ => KPADDING | SUBNET _ _ _ _ => KSUBNET | KEEPALIVE _ _ => KKEEPALIVE | UL _ _ => KUL
  end.
Definition okind_eq (a b : okind) : {a = b} + {a <> b}.
Proof. decide equality. Defined.

(** ** Metatables *)
(** lua-edns0.go: the names registered, and the type that the functions of each expect *)
Definition registered : list (string * okind) :=
  [("EDNS0_COOKIE", KCOOKIE); ("EDNS0_DAU", KDAU); ("EDNS0_DHU", KDHU); ("EDNS0_EDE", KEDE); ("EDNS0_ESU", KESU); ("EDNS0_EXPIRE", KEXPIRE); ("EDNS0_LLQ", KLLQ);
   ("EDNS0_LOCAL", KLOCAL); ("EDNS0_N3U", KN3U); ("EDNS0_NSID", KNSID); ("EDNS0_PADDING", KPADDING); ("EDNS0_SUBNET", KSUBNET);
   ("EDNS0_TCP_KEEPALIVE", KKEEPALIVE); ("EDNS0_UL", KUL)]%string.
(** reflect's TypeOf(v).String() *)
Definition goType (e : edns) : string :=
  match e with
  | COOKIE _ => "*dns.EDNS0_COOKIE" | DAU _ => "*dns.EDNS0_DAU" | DHU _ => "*dns.EDNS0_DHU" | EDE _ _ => "*dns.EDNS0_EDE" | ESU _ => "*dns.EDNS0_ESU"
  | EXPIRE _ _ => "*dns.EDNS0_EXPIRE" | LLQ _ _ _ _ _ => "*dns.EDNS0_LLQ" | LOCAL _ _ => "*dns.EDNS0_LOCAL" | N3U _ => "*dns.EDNS0_N3U" | NSID _ => "*dns.EDNS0_NSID"
  | PADDING _ => "*dns.EDNS0_PADDING" | SUBNET _ _ _ _ => "*dns.EDNS0_SUBNET" | KEEPALIVE _ _ => "*dns.EDNS0_TCP_KEEPALIVE" | UL _ _ => "*dns.EDNS0_UL"
  end%string.
(** lua-rr.go:406-410, lua-opt.go:57-61: the metatable of an option that is read from a record; None: it has none *)
Definition metatable (e : edns) : option okind :=
  let t := goType e in find_field (match split_last "." t with Some (_, b) => b | None => t end) registered.

Section Lua.
Variable far : N -> num -> N.
Variable parseNumber : string -> option num.
Variable numberText : num -> string.
Variable ipString : bytes -> string.
Variable parseIP : string -> option bytes.
Notation checkNumber := (checkNumber parseNumber).
Notation checkString := (checkString numberText).

(** lua-helpers.go:49-63 getNumberSlice, 65-71 numberSliceToTable *)
Definition getNumberSlice (v : lval) : option (list N) := match v with LTab l => numbers far 8 l | _ => None end.
Definition numberSliceToTable (l : list N) : lval := LTab (map (fun n => LNum (of_uint n)) l).
Definition checkUint (w : N) (v : lval) : option N := option_map (uint far w) (checkNumber v).
(** lua-edns0.go:712-718, 765-771 *)
Definition checkIP (v : lval) : option bytes := match checkString v with Some s => parseIP s | None => None end.
(** An argument of new; what is left out is zero *)
Definition arg {A} (args : list lval) (i : nat) (zero : A) (f : lval -> option A) : option A := match nth_error args i with None => Some zero | Some v => f v end.
Definition ap {A B} (f : option (A -> B)) (x : option A) : option B := match f, x with Some f, Some x => Some (f x) | _, _ => None end.

(** lua-edns0.go:36-46, 92-103, 150-161, 208-220, 270-280, 326-336, 382-404, 466-478, 528-539, 586-596, 642-651, 697-722, 786-799, 845-858: new.
    None: an error *)
Definition newOption (k : okind) (args : list lval) : option edns :=
  match k with
  | KCOOKIE => ap (Some COOKIE) (arg args 0 ""%string checkString)
  | KDAU => ap (Some DAU) (arg args 0 [] getNumberSlice)
  | KDHU => ap (Some DHU) (arg args 0 [] getNumberSlice)
  | KEDE => ap (ap (Some EDE) (arg args 0 0 (checkUint 16))) (arg args 1 ""%string checkString)
  | KESU => ap (Some ESU) (arg args 0 ""%string checkString)
  | KEXPIRE => ap (Some (fun n => EXPIRE n false)) (arg args 0 0 (checkUint 32))
  | KLLQ => ap (ap (ap (ap (ap (Some LLQ) (arg args 0 0 (checkUint 16))) (arg args 1 0 (checkUint 16))) (arg args 2 0 (checkUint 16))) (arg args 3 0 (checkUint 64))) (arg args 4 0 (checkUint 32))
  | KLOCAL => ap (ap (Some LOCAL) (arg args 0 0 (checkUint 16))) (arg args 1 ""%string checkString)
  | KN3U => ap (Some N3U) (arg args 0 [] getNumberSlice)
  | KNSID => ap (Some NSID) (arg args 0 ""%string checkString)
  | KPADDING => ap (Some PADDING) (arg args 0 ""%string checkString)
  | KSUBNET => ap (ap (ap (ap (Some SUBNET) (arg args 0 0 (checkUint 16))) (arg args 1 0 (checkUint 8))) (arg args 2 0 (checkUint 8))) (arg args 3 [] checkIP)
  | KKEEPALIVE => ap (ap (Some KEEPALIVE) (arg args 0 0 (checkUint 16))) (arg args 1 0 (checkUint 16))
  | KUL => ap (ap (Some UL) (arg args 0 0 (checkUint 32))) (arg args 1 0 (checkUint 32))
  end.

(** What Option() returns *)
Definition Option_ (e : edns) : N :=
  match e with
  | LLQ _ _ _ _ _ => 1 | UL _ _ => 2 | NSID _ => 3 | ESU _ => 4 | DAU _ => 5 | DHU _ => 6 | N3U _ => 7 | SUBNET _ _ _ _ => 8 | EXPIRE _ _ => 9 | COOKIE _ => 10
  | KEEPALIVE _ _ => 11 | PADDING _ => 12 | EDE _ _ => 15 | LOCAL code _ => code
  end.
(** lua-edns0.go:49-66, 106-123, 164-181, 223-242, 283-300, 339-356, 407-432, 481-500, 542-559, 599-616, 654-671, 725-748, 802-819, 861-880:
    __index. None: an error *)
Definition getOption (e : edns) (name : string) : option lval :=
  if String.eqb name "option" then Some (LNum (of_uint (Option_ e)))
  else match e with
  | COOKIE s => if String.eqb name "cookie" then Some (LStr s) else None
  | DAU l | DHU l | N3U l => if String.eqb name "algcode" then Some (numberSliceToTable l) else None
  | EDE n s => if String.eqb name "infocode" then Some (LNum (of_uint n)) else if String.eqb name "extratext" then Some (LStr s) else None
  | ESU s => if String.eqb name "uri" then Some (LStr s) else None
  | EXPIRE n _ => if String.eqb name "expire" then Some (LNum (of_uint n)) else None
  | LLQ v o x i t =>
      if String.eqb name "version" then Some (LNum (of_uint v)) else if String.eqb name "opcode" then Some (LNum (of_uint o))
      else if String.eqb name "error" then Some (LNum (of_uint x)) else if String.eqb name "id" then Some (LNum (of_uint i))
      else if String.eqb name "leaselife" then Some (LNum (of_uint t)) else None
  | LOCAL n s => if String.eqb name "code" then Some (LNum (of_uint n)) else if String.eqb name "data" then Some (LStr s) else None
  | NSID s => if String.eqb name "nsid" then Some (LStr s) else None
  | PADDING s => if String.eqb name "padding" then Some (LStr s) else None
  | SUBNET f m c a =>
      if String.eqb name "family" then Some (LNum (of_uint f)) else if String.eqb name "sourcenetmask" then Some (LNum (of_uint m))
      else if String.eqb name "sourcescope" then Some (LNum (of_uint c)) else if String.eqb name "address" then Some (LStr (ipString a)) else None
  | KEEPALIVE t _ => if String.eqb name "timeout" then Some (LNum (of_uint t)) else None
  | UL l k => if String.eqb name "lease" then Some (LNum (of_uint l)) else if String.eqb name "keylease" then Some (LNum (of_uint k)) else None
  end.
(** lua-edns0.go:68-83, 125-141, 183-199, 244-261, 302-317, 358-373, 434-457, 502-519, 561-577, 618-633, 673-688, 750-777, 821-836, 882-899:
    __newindex. None: an error, and nothing is assigned *)
Definition setOption (e : edns) (name : string) (v : lval) : option edns :=
  match e with
  | COOKIE s => if String.eqb name "cookie" then option_map COOKIE (checkString v) else None
  | DAU l => if String.eqb name "algcode" then option_map DAU (getNumberSlice v) else None
  | DHU l => if String.eqb name "algcode" then option_map DHU (getNumberSlice v) else None
  | N3U l => if String.eqb name "algcode" then option_map N3U (getNumberSlice v) else None
  | EDE n s => if String.eqb name "infocode" then option_map (fun n => EDE n s) (checkUint 16 v)
               else if String.eqb name "extratext" then option_map (EDE n) (checkString v) else None
  | ESU s => if String.eqb name "uri" then option_map ESU (checkString v) else None
  | EXPIRE n b => if String.eqb name "expire" then option_map (fun n => EXPIRE n b) (checkUint 32 v) else None
  | LLQ a o x i t =>
      if String.eqb name "version" then option_map (fun a => LLQ a o x i t) (checkUint 16 v) else if String.eqb name "opcode" then option_map (fun o => LLQ a o x i t) (checkUint 16 v)
      else if String.eqb name "error" then option_map (fun x => LLQ a o x i t) (checkUint 16 v) else if String.eqb name "id" then option_map (fun i => LLQ a o x i t) (checkUint 64 v)
      else if String.eqb name "leaselife" then option_map (fun t => LLQ a o x i t) (checkUint 32 v) else None
  | LOCAL n s => if String.eqb name "code" then option_map (fun n => LOCAL n s) (checkUint 16 v) else if String.eqb name "data" then option_map (LOCAL n) (checkString v) else None
  | NSID s => if String.eqb name "nsid" then option_map NSID (checkString v) else None
  | PADDING s => if String.eqb name "padding" then option_map PADDING (checkString v) else None
  | SUBNET f m c a =>
      if String.eqb name "family" then option_map (fun f => SUBNET f m c a) (checkUint 16 v) else if String.eqb name "sourcenetmask" then option_map (fun m => SUBNET f m c a) (checkUint 8 v)
      else if String.eqb name "sourcescope" then option_map (fun c => SUBNET f m c a) (checkUint 8 v) else if String.eqb name "address" then option_map (SUBNET f m c) (checkIP v) else None
  | KEEPALIVE t l => if String.eqb name "timeout" then option_map (fun t => KEEPALIVE t l) (checkUint 16 v) else None
  | UL l k => if String.eqb name "lease" then option_map (fun l => UL l k) (checkUint 32 v) else if String.eqb name "keylease" then option_map (UL l) (checkUint 32 v) else None
  end.
(** The functions of the metatable mt, called with the option: lua-helpers.go:28-36 getUserDataArg *)
Definition index (mt : okind) (e : edns) (name : string) : option lval := if okind_eq mt (kind_of e) then getOption e name else None.
Definition newindex (mt : okind) (e : edns) (name : string) (v : lval) : option edns := if okind_eq mt (kind_of e) then setOption e name v else None.

(** ** Scripts: the operations of LuaMsg_model and those on options, which live at addresses of their own, and RR.new *)
Inductive eop := EBase (o : op) | ENew (k : okind) (args : list lval) | EGet (mt : okind) (a : nat) (name : string) | ESet (mt : okind) (a : nat) (name : string) (v : lval)
| ERecord (entries : list (lval * lval)).    (* RR.new *)
(** dns.TypeToRR *)
Variable typeToRR : N -> option (list ftype).
Definition estep (s : store * list edns) (o : eop) : (store * list edns) * option lval :=
  let '(h, es) := s in
  match o with
  | EBase o => let '(h', r) := step far parseNumber numberText ipString parseIP h o in ((h', es), r)
  | ENew k args => match newOption k args with Some e => ((h, es ++ [e]), Some (LUser (ROption (length es)))) | None => (s, None) end
  | EGet mt a name => (s, match nth_error es a with Some e => index mt e name | None => None end)
  | ESet mt a name v =>
      match nth_error es a with
      | Some e => match newindex mt e name v with Some e' => ((h, put_nth a e' es), Some LNil) | None => (s, None) end
      | None => (s, None)
      end
  | ERecord entries => match new far parseIP typeToRR entries with Some r => let '(h', o) := alloc_record r h in ((h', es), Some (LUser (RRecord o))) | None => (s, None) end
  end.
End Lua.

(** ** Constants, lua-types.go:8-47 RegisterConstants *)
(** SetGlobal: a later definition replaces an earlier one *)
Definition globals := list (string * lval).
Definition setGlobal (g : globals) (name : string) (v : lval) : globals := (name, v) :: g.
(** The loops over the tables of the library, in the order in which range has them *)
Definition setAll (prefix : string) (table : list (N * string)) (g : globals) : globals :=
  fold_left (fun g x => setGlobal g (prefix ++ snd x) (LNum (of_uint (fst x)))) table g.
Definition optionCodes : list (N * string) :=
  [(1, "EDNS0LLQ"); (2, "EDNS0UL"); (3, "EDNS0NSID"); (4, "EDNS0ESU"); (5, "EDNS0DAU"); (6, "EDNS0DHU"); (7, "EDNS0N3U"); (8, "EDNS0SUBNET"); (9, "EDNS0EXPIRE");
   (10, "EDNS0COOKIE"); (11, "EDNS0TCPKEEPALIVE"); (12, "EDNS0PADDING"); (15, "EDNS0EDE")]%string.
(** dns.TypeToString, ClassToString, RcodeToString, and an order of the option codes *)
Definition RegisterConstants (version : string) (types classes rcodes options : list (N * string)) (g : globals) : globals :=
  setAll "" options (setAll "Rcode" rcodes (setAll "Class" classes (setAll "Type" types (setGlobal g "BuildVersion" (LStr version))))).

(** ** ClientInfo and errors *)
(** listener.go:18-38 ClientInfo; [] is a nil address *)
Record clientinfo := ClientInfo { c_ip : bytes; c_path : string; c_name : string; c_listener : string; c_protocol : string; c_addr : string }.
(** lua-clientinfo.go:14-44 __index; there is no __newindex, so an assignment is an error *)
Definition getClient (ipString : bytes -> string) (c : clientinfo) (name : string) : option lval :=
  if String.eqb name "source_ip" then Some (match c_ip c with [] => LNil | ip => LStr (ipString ip) end)
  else if String.eqb name "doh_path" then Some (LStr (c_path c))
  else if String.eqb name "tls_server_name" then Some (LStr (c_name c))
  else if String.eqb name "listener" then Some (LStr (c_listener c))
  else if String.eqb name "protocol" then Some (LStr (c_protocol c))
  else if String.eqb name "listener_addr" then Some (LStr (c_addr c))
  else None.
(** lua-error.go:19-24 Error.new, 27-32 error(), called on an error *)
Definition newError (numberText : num -> string) (v : lval) : option string := checkString numberText v.
Definition errorText (e : string) : lval := LStr e.
