(** Messages, questions and OPT records in Lua: lua-message.go, lua-question.go, lua-opt.go. What scripts share by reference lives in a
    store: messages, slices of questions, records. Library behaviour written down from memory of its documentation and source: the methods
    SetReply, SetQuestion, IsEdns0, SetEdns0 of messages and those of OPT records (miekg/dns). *)
From Verif Require Import Base Bytes Dns LuaVal_model LuaRR_model.
Local Open Scope nat_scope.

(** dns.Msg; the slice of questions by the address of its array, records by address. Not modelled: the bit Zero. *)
Record gmsg := GMsg { g_id : N; g_response : bool; g_opcode : Z; g_aa : bool; g_tc : bool; g_rd : bool; g_ra : bool; g_ad : bool; g_cd : bool;
  g_rcode : Z; g_question : nat; g_answer : list nat; g_ns : list nat; g_extra : list nat }.
Record store := Store { msgs : list gmsg; arrays : list (list question); records : list rr }.

Definition with_msg (a : nat) (m : gmsg) (h : store) : store := Store (put_nth a m (msgs h)) (arrays h) (records h).
Definition with_array (a : nat) (l : list question) (h : store) : store := Store (msgs h) (put_nth a l (arrays h)) (records h).
Definition with_record (a : nat) (r : rr) (h : store) : store := Store (msgs h) (arrays h) (put_nth a r (records h)).
(** A new array *)
Definition alloc (l : list question) (h : store) : store * nat := (Store (msgs h) (arrays h ++ [l]) (records h), length (arrays h)).
Definition alloc_record (r : rr) (h : store) : store * nat := (Store (msgs h) (arrays h) (records h ++ [r]), length (records h)).
Definition deref_question (h : store) (a i : nat) : option question :=
  match nth_error (arrays h) a with Some l => nth_error l i | None => None end.

(** dns.OPT *)
Definition optType : list ftype := [FHdr; FPlain "Option" KEdns].
Definition isOPT (r : rr) : bool := match rr_type r with [FHdr; FPlain n KEdns] => String.eqb n "Option" | _ => false end.

Section Lua.
Variable far : N -> num -> N.
(** Strings that read as numbers, numbers as strings *)
Variable parseNumber : string -> option num.
Variable numberText : num -> string.

(** CheckNumber, CheckString, CheckInt, CheckBool. None: a Lua error *)
Definition checkNumber (v : lval) : option num := match v with LNum x => Some x | LStr s => parseNumber s | _ => None end.
Definition checkString (v : lval) : option string := match v with LStr s => Some s | LNum x => Some (numberText x) | _ => None end.
Definition checkInt (v : lval) : option Z := match v with LNum x => Some (int64 far x) | _ => None end.
Definition checkBool (v : lval) : option bool := match v with LBool b => Some b | _ => None end.

(** lua.LNumber of an int *)
Definition of_int (z : Z) : num :=
  match of_uint (Z.to_N (Z.abs z)) with Fin m e => Fin (if (z <? 0)%Z then - m else m)%Z e | x => x end.

(** ** Messages *)
(** lua-message.go:172-179 rrSliceToTable *)
Definition rrSliceToTable (l : list nat) : lval := LTab (map (fun a => LUser (RRecord a)) l).
(** lua-message.go:181-200 tableToRRSlice; None: an error *)
Fixpoint rrElements (l : list lval) : option (list nat) :=
  match l with [] => Some [] | LUser (RRecord a) :: l' => option_map (cons a) (rrElements l') | _ => None end.
Definition tableToRRSlice (v : lval) : option (list nat) := match v with LTab l => rrElements l | _ => None end.
(** lua-message.go:117-130, the loop over questions; the questions are copied *)
Fixpoint questionElements (h : store) (l : list lval) : option (list question) :=
  match l with
  | [] => Some []
  | LUser (RQuestion a i) :: l' => match deref_question h a i with Some q => option_map (cons q) (questionElements h l') | None => None end
  | _ => None
  end.

(** lua-message.go:24-104 __index; methods are functions *)
Definition getMsg (h : store) (a : nat) (name : string) : option lval :=
  match nth_error (msgs h) a with
  | None => None
  | Some m =>
      if String.eqb name "questions" then
        Some (LTab (map (fun i => LUser (RQuestion (g_question m) i)) (seq 0 (length (nth (g_question m) (arrays h) [])))))
      else if String.eqb name "id" then Some (LNum (of_uint (g_id m)))
      else if String.eqb name "response" then Some (LBool (g_response m))
      else if String.eqb name "rcode" then Some (LNum (of_int (g_rcode m)))
      else if String.eqb name "recursion_desired" then Some (LBool (g_rd m))
      else if String.eqb name "recursion_available" then Some (LBool (g_ra m))
      else if String.eqb name "authoritative" then Some (LBool (g_aa m))
      else if String.eqb name "authenticated_data" then Some (LBool (g_ad m))
      else if String.eqb name "answer" then Some (rrSliceToTable (g_answer m))
      else if String.eqb name "ns" then Some (rrSliceToTable (g_ns m))
      else if String.eqb name "extra" then Some (rrSliceToTable (g_extra m))
      else if String.eqb name "set_reply" then Some LFun
      else if String.eqb name "set_question" then Some LFun
      else if String.eqb name "is_edns0" then Some LFun
      else if String.eqb name "set_edns0" then Some LFun
      else None
  end.
(** lua-message.go:105-169 __newindex: the store after it, and whether there was no error *)
Definition setMsg (h : store) (a : nat) (name : string) (v : lval) : store * bool :=
  match nth_error (msgs h) a with
  | None => (h, false)
  | Some (GMsg id response opcode aa tc rd ra ad cd rcode question answer ns extra as m) =>
      let bit f := match checkBool v with Some b => (with_msg a (f b) h, true) | None => (h, false) end in
      let section f := match tableToRRSlice v with Some l => (with_msg a (f l) h, true) | None => (h, false) end in
      if String.eqb name "questions" then
        match v with
        | LTab l =>
            match questionElements h l with
            | Some qs => let '(h', q) := alloc qs h in (with_msg a (GMsg id response opcode aa tc rd ra ad cd rcode q answer ns extra) h', true)
            | None => (h, false)
            end
        | _ => (h, false)
        end
      else if String.eqb name "id" then
        match checkInt v with
        | Some z => (with_msg a (GMsg (Z.to_N (z mod 2 ^ 16)) response opcode aa tc rd ra ad cd rcode question answer ns extra) h, true)
        | None => (h, false)
        end
      else if String.eqb name "response" then bit (fun b => GMsg id b opcode aa tc rd ra ad cd rcode question answer ns extra)
      else if String.eqb name "rcode" then
        match checkInt v with
        | Some z => (with_msg a (GMsg id response opcode aa tc rd ra ad cd z question answer ns extra) h, true)
        | None => (h, false)
        end
      else if String.eqb name "recursion_desired" then bit (fun b => GMsg id response opcode aa tc b ra ad cd rcode question answer ns extra)
      else if String.eqb name "recursion_available" then bit (fun b => GMsg id response opcode aa tc rd b ad cd rcode question answer ns extra)
      else if String.eqb name "authoritative" then bit (fun b => GMsg id response opcode b tc rd ra ad cd rcode question answer ns extra)
      else if String.eqb name "authenticated_data" then bit (fun b => GMsg id response opcode aa tc rd ra b cd rcode question answer ns extra)
      else if String.eqb name "answer" then section (fun l => GMsg id response opcode aa tc rd ra ad cd rcode question l ns extra)
      else if String.eqb name "ns" then section (fun l => GMsg id response opcode aa tc rd ra ad cd rcode question answer l extra)
      else if String.eqb name "extra" then section (fun l => GMsg id response opcode aa tc rd ra ad cd rcode question answer ns l)
      else (h, false)
  end.
(** lua-message.go:19-22 Message.new *)
Definition newMsg (h : store) : store * nat :=
  let '(h', q) := alloc [] h in (Store (msgs h' ++ [GMsg 0 false 0 false false false false false false 0 q [] [] []]) (arrays h') (records h'), length (msgs h)).

(** lua-message.go:59-70 set_reply, on messages a and b *)
Definition setReply (h : store) (a b : nat) : store :=
  match nth_error (msgs h) a, nth_error (msgs h) b with
  | Some m, Some r =>
      let query := (g_opcode r =? 0)%Z in
      let '(h', q) := match nth (g_question r) (arrays h) [] with x :: _ => alloc [x] h | [] => (h, g_question m) end in
      with_msg a (GMsg (g_id r) true (g_opcode r) (g_aa m) (g_tc m) (if query then g_rd r else g_rd m) (g_ra m) (g_ad m) (if query then g_cd r else g_cd m) 0 q
                       (g_answer m) (g_ns m) (g_extra m)) h'
  | _, _ => h
  end.
(** lua-message.go:71-78 set_question with a random id *)
Definition setQuestion (h : store) (a : nat) (id : N) (name : lval) (qtype : lval) : store * bool :=
  match nth_error (msgs h) a, checkString name, checkNumber qtype with
  | Some m, Some n, Some x =>
      let '(h', q) := alloc [Q n (uint far 16 x) 1] h in
      (with_msg a (GMsg id (g_response m) (g_opcode m) (g_aa m) (g_tc m) true (g_ra m) (g_ad m) (g_cd m) (g_rcode m) q (g_answer m) (g_ns m) (g_extra m)) h', true)
  | _, _, _ => (h, false)
  end.
(** lua-message.go:79-90 is_edns0: the last OPT record of the additional section *)
Fixpoint lastOPT (rs : list rr) (l : list nat) (found : option nat) : option nat :=
  match l with
  | [] => found
  | a :: l' => lastOPT rs l' (match nth_error rs a with Some r => if (h_type (rr_hdr r) =? 41)%N then Some a else found | None => found end)
  end.
Definition isEdns0 (h : store) (a : nat) : lval :=
  match nth_error (msgs h) a with
  | Some m => match lastOPT (records h) (g_extra m) None with Some o => LUser (RRecord o) | None => LNil end
  | None => LNil
  end.

(** ** OPT records *)
Definition optHdr (class ttl : N) (h : hdr) : hdr := Hdr (h_name h) (h_type h) class ttl (h_rdlen h).
Definition doBit (ttl : N) : bool := (N.land ttl (2 ^ 15) =? 2 ^ 15)%N.
Definition setDo (ttl : N) : N := N.lor ttl (2 ^ 15).
Definition clearDo (ttl : N) : N := N.ldiff ttl (2 ^ 15).
Definition version (ttl : N) : N := N.shiftr (N.land ttl 16711680) 16.
Definition setVersion (v ttl : N) : N := N.lor (N.land ttl 4278255615) (N.shiftl v 16).
Definition extendedRcode (ttl : N) : N := N.shiftl (N.shiftr (N.land ttl 4278190080) 24) 4.
Definition setExtendedRcode (v ttl : N) : N := N.lor (N.land ttl 16777215) (N.shiftl (N.shiftr v 4) 24 mod 2 ^ 32).
(** lua-message.go:91-98 set_edns0 *)
Definition setEdns0 (h : store) (a : nat) (size do_bit : lval) : store * bool :=
  match nth_error (msgs h) a, checkNumber size, checkBool do_bit with
  | Some m, Some x, Some b =>
      let '(h', o) := alloc_record (RR (Hdr "." 41 (uint far 16 x) (if b then setDo 0 else 0) 0) optType [VHdr; VEdns []]) h in
      (with_msg a (GMsg (g_id m) (g_response m) (g_opcode m) (g_aa m) (g_tc m) (g_rd m) (g_ra m) (g_ad m) (g_cd m) (g_rcode m) (g_question m) (g_answer m) (g_ns m) (g_extra m ++ [o])) h', true)
  | _, _, _ => (h, false)
  end.
(** lua-opt.go:21-36 OPT.new *)
Definition newOPT (args : list lval) : option rr :=
  let size := match args with v :: _ => option_map (uint far 16) (checkNumber v) | [] => Some 0%N end in
  let flag := match args with _ :: v :: _ => checkBool v | _ => Some false end in
  match size, flag with
  | Some n, Some b => Some (RR (Hdr "." 41 n (if b then setDo 0 else 0) 0) optType [VHdr; VEdns []])
  | _, _ => None
  end.
(** lua-opt.go:38-74 __index *)
Definition getOPT (r : rr) (name : string) : option lval :=
  if negb (isOPT r) then None
  else if String.eqb name "udp_size" then Some (LNum (of_uint (h_class (rr_hdr r))))
  else if String.eqb name "do_bit" then Some (LBool (doBit (h_ttl (rr_hdr r))))
  else if String.eqb name "version" then Some (LNum (of_uint (version (h_ttl (rr_hdr r)))))
  else if String.eqb name "extended_rcode" then Some (LNum (of_uint (extendedRcode (h_ttl (rr_hdr r)) mod 2 ^ 8)))
  else if String.eqb name "option" then
    match rr_vals r with [_; VEdns l] => Some (LTab (map (fun a => LUser (ROption a)) l)) | _ => None end
  else if String.eqb name "name" then Some (LStr (h_name (rr_hdr r)))
  else if String.eqb name "rtype" then Some (LNum (of_uint (h_type (rr_hdr r))))
  else None.
(** lua-opt.go:75-120 __newindex *)
Definition setOPT (r : rr) (name : string) (v : lval) : rr * bool :=
  let h := rr_hdr r in
  let put class ttl := (RR (optHdr class ttl h) (rr_type r) (rr_vals r), true) in
  if negb (isOPT r) then (r, false)
  else if String.eqb name "udp_size" then match checkNumber v with Some x => put (uint far 16 x) (h_ttl h) | None => (r, false) end
  else if String.eqb name "do_bit" then match checkBool v with Some b => put (h_class h) (if b then setDo (h_ttl h) else clearDo (h_ttl h)) | None => (r, false) end
  else if String.eqb name "version" then match checkNumber v with Some x => put (h_class h) (setVersion (uint far 8 x) (h_ttl h)) | None => (r, false) end
  else if String.eqb name "extended_rcode" then match checkNumber v with Some x => put (h_class h) (setExtendedRcode (uint far 16 x) (h_ttl h)) | None => (r, false) end
  else if String.eqb name "option" then
    match v with LTab l => match options l with Some os => (RR h (rr_type r) [VHdr; VEdns os], true) | None => (r, false) end | _ => (r, false) end
  else (r, false).

(** ** Questions *)
(** lua-question.go:19-34 Question.new: at most three arguments matter *)
Definition newQuestion (args : list lval) : option question :=
  let name := match args with [] => Some ""%string | v :: _ => checkString v end in
  let qtype := match args with _ :: v :: _ => option_map (uint far 16) (checkNumber v) | _ => Some 0%N end in
  let qclass := match args with _ :: _ :: v :: _ => option_map (uint far 16) (checkNumber v) | _ => Some 1%N end in
  match name, qtype, qclass with Some n, Some t, Some c => Some (Q n t c) | _, _, _ => None end.
(** lua-question.go:37-56 __index *)
Definition getQuestion (h : store) (a i : nat) (name : string) : option lval :=
  match deref_question h a i with
  | None => None
  | Some q =>
      if String.eqb name "name" then Some (LStr (q_name q))
      else if String.eqb name "qtype" then Some (LNum (of_uint (q_type q)))
      else if String.eqb name "qclass" then Some (LNum (of_uint (q_class q)))
      else None
  end.
(** lua-question.go:57-76 __newindex *)
Definition setQuestionField (h : store) (a i : nat) (name : string) (v : lval) : store * bool :=
  match deref_question h a i with
  | None => (h, false)
  | Some q =>
      let put q' := (with_array a (put_nth i q' (nth a (arrays h) [])) h, true) in
      if String.eqb name "name" then match checkString v with Some s => put (Q s (q_type q) (q_class q)) | None => (h, false) end
      else if String.eqb name "qtype" then match checkNumber v with Some x => put (Q (q_name q) (uint far 16 x) (q_class q)) | None => (h, false) end
      else if String.eqb name "qclass" then match checkNumber v with Some x => put (Q (q_name q) (q_type q) (uint far 16 x)) | None => (h, false) end
      else (h, false)
  end.

(** net.IP's String and net.ParseIP *)
Variable ipString : bytes -> string.
Variable parseIP : string -> option bytes.
(** ** What a script does, one operation after the other *)
Inductive op :=
| ONew | OGet (a : nat) (name : string) | OSet (a : nat) (name : string) (v : lval)
| OReply (a b : nat) | OAsk (a : nat) (id : N) (name qtype : lval) | OIsEdns (a : nat) | OEdns (a : nat) (size do_bit : lval)
| OQNew (args : list lval) | OQGet (a i : nat) (name : string) | OQSet (a i : nat) (name : string) (v : lval)
| OOptNew (args : list lval) | OOptGet (o : nat) (name : string) | OOptSet (o : nat) (name : string) (v : lval)
| ORGet (o : nat) (name : string) | ORSet (o : nat) (name : string) (v : lval).
(** The store after it and the value it gives. None: a Lua error. *)
Definition step (h : store) (o : op) : store * option lval :=
  let done b v := if b : bool then Some v else None in
  match o with
  | ONew => let '(h', a) := newMsg h in (h', Some (LUser (RMsg a)))
  | OGet a name => (h, getMsg h a name)
  | OSet a name v => let '(h', b) := setMsg h a name v in (h', done b LNil)
  | OReply a b => (setReply h a b, Some (LUser (RMsg a)))
  | OAsk a id name qtype => let '(h', b) := setQuestion h a id name qtype in (h', done b (LUser (RMsg a)))
  | OIsEdns a => (h, Some (isEdns0 h a))
  | OEdns a size do_bit => let '(h', b) := setEdns0 h a size do_bit in (h', done b (LUser (RMsg a)))
  | OQNew args => match newQuestion args with Some q => let '(h', a) := alloc [q] h in (h', Some (LUser (RQuestion a 0))) | None => (h, None) end
  | OQGet a i name => (h, getQuestion h a i name)
  | OQSet a i name v => let '(h', b) := setQuestionField h a i name v in (h', done b LNil)
  | OOptNew args => match newOPT args with Some r => let '(h', o) := alloc_record r h in (h', Some (LUser (RRecord o))) | None => (h, None) end
  | OOptGet o name => (h, match nth_error (records h) o with Some r => getOPT r name | None => None end)
  | OOptSet o name v =>
      match nth_error (records h) o with
      | Some r => let '(r', b) := setOPT r name v in (with_record o r' h, done b LNil)
      | None => (h, None)
      end
  | ORGet o name => (h, match nth_error (records h) o with Some r => get ipString r name | None => None end)
  | ORSet o name v =>
      match nth_error (records h) o with
      | Some r => let '(r', b) := newindex far parseIP r name v in (with_record o r' h, done b LNil)
      | None => (h, None)
      end
  end.
End Lua.
