(** Model of logger.go: the loggers that elements and listeners use for a query; cmd/routedns/main.go:143-158 slogLevel.
    Slices are slices of arrays in a memory, since With must not write into an array that another logger shows.
    Not modelled: the time and the program counter of a record, groups of attributes, what a handler prints. *)
From Verif Require Import Base Bytes Dns.
Local Open Scope Z_scope.

(** log/slog: LevelDebug, LevelInfo, LevelWarn, LevelError *)
Definition LevelDebug : Z := -4. Definition LevelInfo : Z := 0. Definition LevelWarn : Z := 4. Definition LevelError : Z := 8.

(** Values of attributes: strings, addresses, anything else (numbered), attributes in the place of a value *)
Inductive val := VStr (s : string) | VIP (ip : bytes) | VOther (n : nat) | VAttr (k : string) (v : val).
(** An argument of type any: a string, a slog.Attr, something else *)
Inductive arg := AStr (s : string) | AAttr (k : string) (v : val) | AOther (n : nat).
Definition attr := (string * val)%type.
Definition as_value (x : arg) : val := match x with AStr s => VStr s | AAttr k v => VAttr k v | AOther n => VOther n end.
(** slog.Record.Add with argsToAttr: keys and values alternate, attributes stand for themselves, what has no key gets !BADKEY *)
Fixpoint attrs_of (l : list arg) : list attr :=
  match l with
  | [] => []
  | AStr k :: l' => match l' with [] => [("!BADKEY"%string, VStr k)] | x :: l'' => (k, as_value x) :: attrs_of l'' end
  | AAttr k v :: l' => (k, v) :: attrs_of l'
  | AOther n :: l' => ("!BADKEY"%string, VOther n) :: attrs_of l'
  end.

(** Arrays of arguments; a slice is the first s_len of the s_cap elements of an array, nil has neither *)
Record slice := Slice { s_arr : nat; s_len : nat; s_cap : nat }.
Definition nil_slice : slice := Slice 0 0 0.
Definition memory := list (list arg).
Definition read (m : memory) (s : slice) : list arg := firstn (s_len s) (nth (s_arr s) m []).
Fixpoint update {A} (i : nat) (x : A) (l : list A) : list A :=
  match l, i with [], _ => [] | _ :: l', O => x :: l' | y :: l', S i' => y :: update i' x l' end.
(** slices.Clip: s[:len(s):len(s)] *)
Definition clip (s : slice) : slice := Slice (s_arr s) (s_len s) (s_len s).
(** append: into the array if there is room, else into a new one with [spare] more elements than needed *)
Definition append (spare : nat) (m : memory) (s : slice) (l : list arg) : memory * slice :=
  let n := (s_len s + length l)%nat in
  if Nat.leb n (s_cap s)
  then let a := nth (s_arr s) m [] in (update (s_arr s) (firstn (s_len s) a ++ l ++ skipn n a) m, Slice (s_arr s) n (s_cap s))
  else (m ++ [read m s ++ l ++ repeat (AOther 0) spare], Slice (length m) n (n + spare)).

(** ClientInfo, the fields that are logged *)
Record linfo := LInfo { li_ip : bytes; li_protocol : string; li_addr : string; li_path : string }.
(** logger.go:32-45 queryLogger. [l_dst]: a slog.Logger, or nil. [l_q]: a pointer to the query, or nil. *)
Record qlogger := QLogger { l_dst : option nat; l_id : string; l_q : option nat; l_ci : linfo; l_extra : slice }.
(** A record handed to the handler of a slog.Logger *)
Record entry := Entry { e_to : nat; e_level : Z; e_msg : string; e_attrs : list attr }.
(** The messages that pointers lead to, the global Log, the loggers so far, what was logged *)
Record lstate := LState { mem : memory; messages : nat -> msg; global : nat; loggers : list qlogger; out : list entry }.

Section LOG.
(** dns.Type.String; the level at which each slog.Logger starts *)
Variable typeName : N -> string.
Variable level_of : nat -> Z.

(** logger.go:47-49 logger *)
Definition logger (s : lstate) (id : string) (q : option nat) (ci : linfo) : qlogger := QLogger (Some (global s)) id q ci nil_slice.
(** logger.go:52-61 With *)
Definition with_args (spare : nat) (m : memory) (l : qlogger) (args : list arg) : memory * qlogger :=
  match args with
  | [] => (m, l)
  | _ => let '(m', x) := append spare m (clip (l_extra l)) args in (m', QLogger (l_dst l) (l_id l) (l_q l) (l_ci l) x)
  end.
(** logger.go:108-113 qTypeName *)
Definition qTypeName (q : msg) : string := match m_question q with [] => ""%string | x :: _ => typeName (q_type x) end.
(** logger.go:68-95 log *)
Definition log (s : lstate) (l : qlogger) (level : Z) (text : string) (args : list arg) : option entry :=
  let dst := match l_dst l with Some d => d | None => global s end in
  if level <? level_of dst then None
  else
    let ci := l_ci l in
    let as1 := [("id"%string, VStr (l_id l)); ("client"%string, VIP (li_ip ci))] in
    let as2 := match l_q l with
               | Some p => [("qtype"%string, VStr (qTypeName (messages s p))); ("qname"%string, VStr (qName (messages s p)))]
               | None => []
               end in
    let as3 := if String.eqb (li_protocol ci) "" then [] else [("protocol"%string, VStr (li_protocol ci))] in
    let as4 := if String.eqb (li_addr ci) "" then [] else [("addr"%string, VStr (li_addr ci))] in
    let as5 := if String.eqb (li_path ci) "" then [] else [("path"%string, VStr (li_path ci))] in
    Some (Entry dst level text (as1 ++ as2 ++ as3 ++ as4 ++ as5 ++ attrs_of (read (mem s) (l_extra l)) ++ attrs_of args)).

(** What happens: a logger is made, with the current Log or as a struct without one; With on the i-th logger, whose copy is the next one;
    a call of Debug, Info, Warn, Error (logger.go:63-66); Log is replaced; a message changes *)
Inductive levent :=
| ENew (id : string) (q : option nat) (ci : linfo)
| EBare (id : string) (q : option nat) (ci : linfo)
| EWith (i : nat) (args : list arg) (spare : nat)
| ELog (i : nat) (level : Z) (text : string) (args : list arg)
| EGlobal (d : nat)
| EMessage (p : nat) (m : msg).
Definition add_logger (l : qlogger) (s : lstate) : lstate := LState (mem s) (messages s) (global s) (loggers s ++ [l]) (out s).
Definition lstep (s : lstate) (e : levent) : option lstate :=
  match e with
  | ENew id q ci => Some (add_logger (logger s id q ci) s)
  | EBare id q ci => Some (add_logger (QLogger None id q ci nil_slice) s)
  | EWith i args spare =>
      match nth_error (loggers s) i with
      | None => None
      | Some l => let '(m, l') := with_args spare (mem s) l args in Some (add_logger l' (LState m (messages s) (global s) (loggers s) (out s)))
      end
  | ELog i level text args =>
      match nth_error (loggers s) i with
      | None => None
      | Some l => Some (match log s l level text args with None => s | Some x => LState (mem s) (messages s) (global s) (loggers s) (out s ++ [x]) end)
      end
  | EGlobal d => Some (LState (mem s) (messages s) d (loggers s) (out s))
  | EMessage p m => Some (LState (mem s) (fun x => if Nat.eqb x p then m else messages s x) (global s) (loggers s) (out s))
  end.
Fixpoint lrun (s : lstate) (l : list levent) : option lstate :=
  match l with [] => Some s | e :: l' => match lstep s e with None => None | Some s' => lrun s' l' end end.
Definition linit (d : nat) : lstate := LState [] (fun _ => empty_msg) d [] [].
End LOG.

(** cmd/routedns/main.go:143-158 slogLevel: None is an error. math.MaxInt of a 64-bit machine. *)
Definition slogLevel (n : N) : option Z :=
  if (n =? 0)%N || (n =? 1)%N then Some 9223372036854775807
  else if (n =? 2)%N then Some LevelError
  else if (n =? 3)%N then Some LevelWarn
  else if (n =? 4)%N then Some LevelInfo
  else if (n =? 5)%N || (n =? 6)%N then Some LevelDebug
  else None.
