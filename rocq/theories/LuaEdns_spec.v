(** What a script may rely on when it works with EDNS0 options, constants, client information and errors. *)
From Verif Require Import Base Bytes Net LuaVal_model LuaRR_model LuaRR_spec LuaMsg_model LuaMsg_spec LuaEdns_model.
Local Open Scope N_scope.

(** What an option holds, by the names that scripts use: numbers of so many bits, text, lists of numbers of 8 bits, an address *)
Inductive oval := ONum (w n : N) | OText (s : string) | ONums (l : list N) | OAddr (ip : bytes).
Definition content (e : edns) : list (string * oval) :=
  match e with
  | COOKIE s => [("cookie", OText s)]
  | DAU l | DHU l | N3U l => [("algcode", ONums l)]
  | EDE n s => [("infocode", ONum 16 n); ("extratext", OText s)]
  | ESU s => [("uri", OText s)]
  | EXPIRE n _ => [("expire", ONum 32 n)]
  | LLQ v o x i t => [("version", ONum 16 v); ("opcode", ONum 16 o); ("error", ONum 16 x); ("id", ONum 64 i); ("leaselife", ONum 32 t)]
  | LOCAL n s => [("code", ONum 16 n); ("data", OText s)]
  | NSID s => [("nsid", OText s)]
  | PADDING s => [("padding", OText s)]
  | SUBNET f m c a => [("family", ONum 16 f); ("sourcenetmask", ONum 8 m); ("sourcescope", ONum 8 c); ("address", OAddr a)]
  | KEEPALIVE t _ => [("timeout", ONum 16 t)]
  | UL l k => [("lease", ONum 32 l); ("keylease", ONum 32 k)]
  end%string.
(** What scripts do not see: that an EXPIRE option came without a value, the length of TCP_KEEPALIVE (which is not used) *)
Definition hidden (e : edns) : option (bool + N) := match e with EXPIRE _ b => Some (inl b) | KEEPALIVE _ n => Some (inr n) | _ => None end.
(** The option codes of RFC 6891 and its registry; an EDNS0_LOCAL option has a code of its own. *)
Definition assigned_code (k : okind) : option N :=
  match k with
  | KLLQ => Some 1 | KUL => Some 2 | KNSID => Some 3 | KESU => Some 4 | KDAU => Some 5 | KDHU => Some 6 | KN3U => Some 7 | KSUBNET => Some 8 | KEXPIRE => Some 9
  | KCOOKIE => Some 10 | KKEEPALIVE => Some 11 | KPADDING => Some 12 | KEDE => Some 15 | KLOCAL => None
  end.
Definition has_code (e : edns) (n : N) : Prop :=
  match assigned_code (kind_of e) with Some c => n = c | None => In ("code"%string, ONum 16 n) (content e) end.
(** The names of the types in scripts *)
Definition type_names : list (okind * string) :=
  [(KCOOKIE, "EDNS0_COOKIE"); (KDAU, "EDNS0_DAU"); (KDHU, "EDNS0_DHU"); (KEDE, "EDNS0_EDE"); (KESU, "EDNS0_ESU"); (KEXPIRE, "EDNS0_EXPIRE"); (KLLQ, "EDNS0_LLQ");
   (KLOCAL, "EDNS0_LOCAL"); (KN3U, "EDNS0_N3U"); (KNSID, "EDNS0_NSID"); (KPADDING, "EDNS0_PADDING"); (KSUBNET, "EDNS0_SUBNET"); (KKEEPALIVE, "EDNS0_TCP_KEEPALIVE"); (KUL, "EDNS0_UL")]%string.

Definition sized (v : oval) : Prop := match v with ONum w n => n < 2 ^ w | ONums l => Forall (fun n => n < 2 ^ 8) l | _ => True end.
Definition edns_ok (e : edns) : Prop := Forall (fun f => sized (snd f)) (content e).

(** How a value is shown to a script. Numbers beyond 2^53 may be off by one part in 2^53. *)
Inductive oshows (ipString : bytes -> string) : oval -> lval -> Prop :=
| oshows_num : forall w n x, close x (Z.of_N n) -> oshows ipString (ONum w n) (LNum x)
| oshows_text : forall s, oshows ipString (OText s) (LStr s)
| oshows_nums : forall l l', Forall2 (fun n v => exists x, v = LNum x /\ denotes x (Z.of_N n)) l l' -> oshows ipString (ONums l) (LTab l')
| oshows_addr : forall ip, oshows ipString (OAddr ip) (LStr (ipString ip)).

Section Taking.
Variable parseNumber : string -> option num.
Variable numberText : num -> string.
Variable parseIP : string -> option bytes.
(** What takes the place of a value when a script assigns v *)
Inductive otakes : oval -> lval -> oval -> Prop :=
| otakes_num : forall w old v x n, number_of parseNumber v x -> stores w x n -> otakes (ONum w old) v (ONum w n)
| otakes_text : forall old v s, text_of numberText v s -> otakes (OText old) v (OText s)
| otakes_nums : forall old l l', Forall2 (fun v n => exists x, v = LNum x /\ stores 8 x n) l l' -> otakes (ONums old) (LTab l) (ONums l')
| otakes_addr : forall old v s ip, text_of numberText v s -> parseIP s = Some ip -> otakes (OAddr old) v (OAddr ip).
(** The values that may be assigned *)
Inductive oaccepts : oval -> lval -> Prop :=
| oaccepts_num : forall w old v x, number_of parseNumber v x -> oaccepts (ONum w old) v
| oaccepts_text : forall old v s, text_of numberText v s -> oaccepts (OText old) v
| oaccepts_nums : forall old l, (forall v, In v l -> exists x, v = LNum x) -> oaccepts (ONums old) (LTab l)
| oaccepts_addr : forall old v s ip, text_of numberText v s -> parseIP s = Some ip -> oaccepts (OAddr old) v.
Definition zero_like (v : oval) : oval := match v with ONum w _ => ONum w 0 | OText _ => OText "" | ONums _ => ONums [] | OAddr _ => OAddr [] end.
(** A field of a new option: from the argument, or zero *)
Definition made (args : list lval) (i : nat) (w : oval) : Prop :=
  match nth_error args i with None => w = zero_like w | Some v => otakes (zero_like w) v w end.
(** What the constructors take: the fields, and for EDNS0_TCP_KEEPALIVE the length that is not used *)
Definition params (k : okind) : list oval :=
  match k with
  | KCOOKIE | KESU | KNSID | KPADDING => [OText ""]
  | KDAU | KDHU | KN3U => [ONums []]
  | KEDE | KLOCAL => [ONum 16 0; OText ""]
  | KEXPIRE => [ONum 32 0]
  | KLLQ => [ONum 16 0; ONum 16 0; ONum 16 0; ONum 64 0; ONum 32 0]
  | KSUBNET => [ONum 16 0; ONum 8 0; ONum 8 0; OAddr []]
  | KKEEPALIVE => [ONum 16 0; ONum 16 0]
  | KUL => [ONum 32 0; ONum 32 0]
  end.
End Taking.

(** Values that a field can hold as they are *)
Inductive oexact (ipString : bytes -> string) (parseIP : string -> option bytes) : oval -> lval -> Prop :=
| oexact_num : forall w old x, whole (N.min w 53) x -> oexact ipString parseIP (ONum w old) (LNum x)
| oexact_text : forall old s, oexact ipString parseIP (OText old) (LStr s)
| oexact_nums : forall old l, (forall v, In v l -> exists x, v = LNum x /\ whole 8 x) -> oexact ipString parseIP (ONums old) (LTab l)
| oexact_addr : forall old s ip, parseIP s = Some ip -> ipString ip = s -> oexact ipString parseIP (OAddr old) (LStr s).
(** Values that survive being read and written *)
Definition keeps (v : oval) : Prop :=
  match v with ONum _ n => n <= 2 ^ 53 | OAddr ip => (length ip = 4 \/ length ip = 16)%nat /\ Forall (fun b => b < 256) ip | _ => True end.
Definition same_oval (x y : oval) : Prop := x = y \/ exists a b, x = OAddr a /\ y = OAddr b /\ same_ip a b.

(** ** Scripts *)
(** The options that a record refers to *)
Definition options_of (r : rr) : list nat := flat_map (fun f => match snd f with VEdns l => l | _ => [] end) (fields r).
Record state_ok (s : store * list edns) : Prop := {
  ok_store : store_ok (fst s);
  ok_options : Forall edns_ok (snd s);
  ok_links : Forall (fun r => Forall (fun o => (o < length (snd s))%nat) (options_of r)) (records (fst s)) }.
Definition reaches (s : store * list edns) (r : ref) : Prop := ref_ok (fst s) r /\ forall a, r = ROption a -> (a < length (snd s))%nat.
Definition epossible (known : list ref) (o : eop) : Prop :=
  match o with
  | EBase o => possible known o
  | ENew _ args => True
  | ERecord entries => NoDup (map fst entries) /\ forall k v, In (k, v) entries -> made_of known v
  | EGet _ a _ | ESet _ a _ _ => In (ROption a) known
  end.
Inductive escript (next : store * list edns -> eop -> (store * list edns) * option lval) : store * list edns -> list ref -> store * list edns -> list ref -> Prop :=
| escript_done : forall s k, escript next s k s k
| escript_step : forall s k o s1 res s2 k2, epossible k o -> next s o = (s1, res) ->
    escript next s1 (k ++ match res with Some v => refs_of v | None => [] end) s2 k2 -> escript next s k s2 k2.

(** ** Constants, client information *)
Definition value_of (g : globals) (name : string) : option lval := option_map snd (List.find (fun x => String.eqb name (fst x)) g).
Definition is_number (v : option lval) (n : N) : Prop := exists x, v = Some (LNum x) /\ denotes x (Z.of_N n).
(** The names of the documentation *)
Definition client_fields (ipString : bytes -> string) (c : clientinfo) : list (string * lval) :=
  [("source_ip", match c_ip c with [] => LNil | ip => LStr (ipString ip) end); ("doh_path", LStr (c_path c)); ("tls_server_name", LStr (c_name c));
   ("listener", LStr (c_listener c)); ("protocol", LStr (c_protocol c)); ("listener_addr", LStr (c_addr c))]%string.
(** The constants for the option codes *)
Definition code_names : list (okind * string) :=
  [(KLLQ, "EDNS0LLQ"); (KUL, "EDNS0UL"); (KNSID, "EDNS0NSID"); (KESU, "EDNS0ESU"); (KDAU, "EDNS0DAU"); (KDHU, "EDNS0DHU"); (KN3U, "EDNS0N3U"); (KSUBNET, "EDNS0SUBNET");
   (KEXPIRE, "EDNS0EXPIRE"); (KCOOKIE, "EDNS0COOKIE"); (KKEEPALIVE, "EDNS0TCPKEEPALIVE"); (KPADDING, "EDNS0PADDING"); (KEDE, "EDNS0EDE")]%string.
