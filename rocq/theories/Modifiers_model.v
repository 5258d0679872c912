(** Model of the elements that modify queries or responses: padding.go, ecs-modifier.go,
    edns0-modifier.go, ttl-modifier.go, replace.go, response-minimize.go, response-collapse.go,
    truncate-retry.go. Messages are values, so a Copy is implicit; the elements that modify the
    upstream response in place return the modified message. Upstream resolvers are functions from
    the query to the result; the queries sent upstream are returned where they matter. *)
From Verif Require Import Base Bytes Dns Net.
Open Scope N_scope.

(** ** padding.go *)
Definition QueryPaddingBlockSize : N := 128.
Definition ResponsePaddingBlockSize : N := 468.

(** padding.go:31-43 and 67-80: empty all padding options, add one if there is none. [None]: the
    type assertion panics because an option with code 12 is not an EDNS0_PADDING. *)
Fixpoint clear_padding (l : list edns0) : option (list edns0) :=
  match l with
  | [] => Some []
  | o :: l' =>
      match clear_padding l' with
      | None => None
      | Some r => if N.eqb (opt_code o) 12 then match o with PADDING _ => Some (PADDING [] :: r) | _ => None end
                  else Some (o :: r)
      end
  end.
Definition has_padding (l : list edns0) : bool := existsb (fun o => N.eqb (opt_code o) 12) l.
Definition prepare_padding (l : list edns0) : option (list edns0) :=
  match clear_padding l with
  | None => None
  | Some r => Some (if has_padding l then r else r ++ [PADDING []])
  end.

(** paddingOpt.Padding = data, where paddingOpt is the last padding option *)
Fixpoint fill_padding (data : bytes) (l : list edns0) : list edns0 :=
  match l with
  | [] => []
  | o :: l' => if has_padding l' then o :: fill_padding data l'
               else match o with PADDING _ => PADDING data :: l' | _ => o :: l' end
  end.

Section Padding.
(** Msg.Len(): the options of the OPT record count with code, length and data; [base] is the
    length of the rest of the message. (With name compression this holds as long as the padding
    does not move a name in a later record across offset 16383.) *)
Variable base : msg -> N.
Variable optlen : edns0 -> N.
Definition edns0_options (m : msg) : list edns0 := match is_edns0 m with Some o => opt_options o | None => [] end.
Definition sumlen (l : list edns0) : N := fold_right (fun o n => optlen o + n) 0 l.
Definition msg_len (m : msg) : N := base (update_edns0 (opt_set_options []) m) + sumlen (edns0_options m).

(** padding.go:17-57 padAnswer; [None] is a panic. The slice expression respPadBuf[0:padLen]
    panics beyond the buffer. *)
Definition padAnswer (q a : msg) : option msg :=
  match is_edns0 q with
  | None => Some a
  | Some edns0q =>
      let a := match is_edns0 a with
               | None => set_edns0 (opt_udpsize edns0q) (opt_do edns0q) a
               | Some _ => a
               end in
      match prepare_padding (edns0_options a) with
      | None => None
      | Some opts =>
          let a := update_edns0 (opt_set_options opts) a in
          let len := msg_len a in
          let padLen := ResponsePaddingBlockSize - len mod ResponsePaddingBlockSize in
          let padLen := if opt_udpsize edns0q <? len + padLen then N.max (opt_udpsize edns0q - len) 0 else padLen in
          if padLen <=? ResponsePaddingBlockSize
          then Some (update_edns0 (opt_set_options (fill_padding (repeat 0 (N.to_nat padLen)) opts)) a)
          else None
      end
  end.

(** padding.go:61-86 padQuery *)
Definition padQuery (q : msg) : option msg :=
  match is_edns0 q with
  | None => Some q
  | Some _ =>
      match prepare_padding (edns0_options q) with
      | None => None
      | Some opts =>
          let q := update_edns0 (opt_set_options opts) q in
          let padLen := QueryPaddingBlockSize - msg_len q mod QueryPaddingBlockSize in
          if padLen <=? QueryPaddingBlockSize
          then Some (update_edns0 (opt_set_options (fill_padding (repeat 0 (N.to_nat padLen)) opts)) q)
          else None
      end
  end.
End Padding.

(** padding.go:90-102 stripPadding *)
Definition stripPadding (m : msg) : msg :=
  match is_edns0 m with
  | None => m
  | Some o => update_edns0 (opt_set_options (filter (fun x => negb (N.eqb (opt_code x) 12)) (opt_options o))) m
  end.

(** ** edns0-modifier.go *)
(** edns0-modifier.go:44-60 EDNS0ModifierDelete *)
Definition EDNS0ModifierDelete (code : N) (q : msg) : msg :=
  match is_edns0 q with
  | None => q
  | Some o => update_edns0 (opt_set_options (filter (fun x => negb (N.eqb (opt_code x) code)) (opt_options o))) q
  end.

(** IsEdns0, adding a record with size 4096 if there is none; then append an option *)
Definition append_option (o : edns0) (q : msg) : msg :=
  let q := match is_edns0 q with Some _ => q | None => set_edns0 4096 false q end in
  update_edns0 (fun r => opt_set_options (opt_options r ++ [o]) r) q.

(** edns0-modifier.go:62-80 EDNS0ModifierAdd *)
Definition EDNS0ModifierAdd (code : N) (data : bytes) (q : msg) : msg :=
  append_option (LOCAL code data) (EDNS0ModifierDelete code q).

(** edns0-modifier.go:26-38 Resolve; no modifier is [None] *)
Definition modify_query (modifier : option (msg -> msg)) (resolve : msg -> result) (q : msg) : msg * result :=
  let q := match modifier with Some f => f q | None => q end in (q, resolve q).

(** ** ecs-modifier.go *)
(** net.CIDRMask and IP.Mask; [] is nil *)
Definition cidr_mask (ones : N) (len : nat) : bytes :=
  if ones <=? N.of_nat (8 * len) then mask_bytes (N.to_nat ones) len else [].
Definition ip_mask (ip mask : bytes) : bytes :=
  let mask := if Nat.eqb (length mask) 16 && Nat.eqb (length ip) 4 && forallb (N.eqb 255) (firstn 12 mask)
              then skipn 12 mask else mask in
  let ip := if Nat.eqb (length mask) 4 && Nat.eqb (length ip) 16
               && (if list_eq_dec N.eq_dec (firstn 12 ip) v4prefix then true else false)
            then skipn 12 ip else ip in
  if Nat.eqb (length ip) (length mask) then land_bytes ip mask else [].

Definition is_ecs (o : edns0) : bool := match o with ECS _ _ _ _ => true | _ => false end.

(** ecs-modifier.go:46-68 ECSModifierDelete *)
Definition ECSModifierDelete (q : msg) : msg :=
  match is_edns0 q with
  | None => q
  | Some o => update_edns0 (opt_set_options (filter (fun x => negb (is_ecs x)) (opt_options o))) q
  end.

(** ecs-modifier.go:70-118 ECSModifierAdd; [addr] = [] is nil *)
Definition ecs_option (sourceIP : bytes) (prefix4 prefix6 : N) : edns0 :=
  match to4 sourceIP with
  | Some ip4 => ECS 1 prefix4 0 (ip_mask ip4 (cidr_mask prefix4 4))
  | None => ECS 2 prefix6 0 (ip_mask sourceIP (cidr_mask prefix6 16))
  end.
Definition ECSModifierAdd (addr : bytes) (prefix4 prefix6 : N) (ci : client) (q : msg) : msg :=
  let q := ECSModifierDelete q in
  let sourceIP := match addr with [] => ci_ip ci | _ => addr end in
  append_option (ecs_option sourceIP prefix4 prefix6) q.

(** ecs-modifier.go:120-144 ECSModifierAddIfMissing *)
Definition ECSModifierAddIfMissing (addr : bytes) (prefix4 prefix6 : N) (ci : client) (q : msg) : msg :=
  match is_edns0 q with
  | Some o => if existsb is_ecs (opt_options o) then q else ECSModifierAdd addr prefix4 prefix6 ci q
  | None => ECSModifierAdd addr prefix4 prefix6 ci q
  end.

(** ecs-modifier.go:146-189 ECSModifierPrivacy *)
Definition privacy_option (prefix4 prefix6 : N) (o : edns0) : edns0 :=
  match o with
  | ECS family mask scope address =>
      if N.eqb family 1 then
        ECS family prefix4 scope (match to4 address with Some b => ip_mask b (cidr_mask prefix4 4) | None => ip_mask [] (cidr_mask prefix4 4) end)
      else if N.eqb family 2 then ECS family prefix6 scope (ip_mask address (cidr_mask prefix6 16))
      else o
  | _ => o
  end.
Definition ECSModifierPrivacy (prefix4 prefix6 : N) (q : msg) : msg :=
  match is_edns0 q with
  | None => q
  | Some o => update_edns0 (opt_set_options (map (privacy_option prefix4 prefix6) (opt_options o))) q
  end.

(** ** ttl-modifier.go *)
Definition MaxUint32 : N := 4294967295.
(** ttl-modifier.go:202-213 iterateOverAnswerRRHeader, setting TTLs *)
Definition map_ttl (f : N -> N) (l : list rr) : list rr :=
  map (fun r => if is_opt r then r else set_ttl (f (rr_ttl r)) r) l.
Definition map_msg_ttl (f : N -> N) (a : msg) : msg :=
  set_extra (map_ttl f (m_extra a)) (set_ns (map_ttl f (m_ns a)) (set_answer (map_ttl f (m_answer a)) a)).
(** the TTLs it visits, in order *)
Definition ttls (a : msg) : list N :=
  map rr_ttl (filter (fun r => negb (is_opt r)) (m_answer a ++ m_ns a ++ m_extra a)).

Inductive ttlselect := SelLowest | SelHighest | SelAverage | SelFirst | SelLast | SelRandom.

(** The value chosen by TTLSelectLowest (84-100), TTLSelectHighest (103-119), TTLSelectAverage
    (122-144), TTLSelectFirst (147-168), TTLSelectLast (171-187), TTLSelectRandom (190-200).
    [intn n] is rand.Intn(n). Sums of TTLs are computed without int wrap-around. *)
Definition select_value (intn : N -> N) (minTTL maxTTL : N) (s : ttlselect) (l : list N) : N :=
  match s with
  | SelLowest => fold_left (fun lowest t => if t <? lowest then t else lowest) l MaxUint32
  | SelHighest => fold_left (fun highest t => if highest <? t then t else highest) l 0
  | SelAverage =>
      let sum := fold_left N.add l 0 in
      let n := if Nat.eqb (length l) 0 then 1 else N.of_nat (length l) in
      (sum / n) mod 2^32
  | SelFirst => match l with [] => 0 | t :: _ => t end
  | SelLast => last l 0
  | SelRandom => if minTTL <? maxTTL then (minTTL + intn (maxTTL - minTTL)) mod 2^32 else minTTL
  end.

(** ttl-modifier.go:36-45 NewTTLModifier, 49-76 Resolve *)
Definition ttl_resolve (intn : N -> N) (sel : option ttlselect) (minTTL maxTTL : N) (r : result) : result :=
  let maxTTL := if N.eqb maxTTL 0 then MaxUint32 else maxTTL in
  match r with
  | Ans a =>
      let a := match sel with
               | None => a
               | Some s => map_msg_ttl (fun _ => select_value intn minTTL maxTTL s (ttls a)) a
               end in
      Ans (map_msg_ttl (fun t => let t := if t <? minTTL then minTTL else t in
                                 if maxTTL <? t then maxTTL else t) a)
  | r => r
  end.

(** ** replace.go *)
(** replace.go:27-32 apply; an expression is its ReplaceAllString *)
Definition apply_exps (exps : list (string -> string)) (name : string) : string :=
  fold_left (fun n f => f n) exps name.

Definition set_qname (name : string) (m : msg) : msg :=
  match m_question m with
  | [] => m
  | x :: l => set_question (Q name (q_type x) (q_class x) :: l) m
  end.

(** replace.go:56-95 Resolve. Returns the query sent upstream; [None] is a panic (no question). *)
Definition replace_resolve (exps : list (string -> string)) (resolve : msg -> result) (q : msg) : option (msg * result) :=
  match m_question q with
  | [] => None
  | x :: _ =>
      let oldName := q_name x in
      let newName := apply_exps exps oldName in
      if String.eqb newName oldName then Some (q, resolve q)
      else
        let q := set_qname newName q in
        Some (q, match resolve q with
                 | Ans a => Ans (set_answer (map (fun r => if String.eqb (rr_name r) newName then set_name oldName r else r) (m_answer a))
                                            (set_qname oldName a))
                 | r => r
                 end)
  end.

(** ** response-minimize.go:23-32 Resolve, on the upstream's result *)
Definition minimize_resolve (r : result) : result :=
  match r with Ans a => Ans (set_ns [] (set_extra [] a)) | r => r end.

(** ** response-collapse.go:28-55 Resolve; [None] is a panic *)
Definition collapse_resolve (nullRCode : N) (resolve : msg -> result) (q : msg) : option result :=
  match resolve q with
  | Ans a =>
      if negb (N.eqb (m_rcode a) RcodeSuccess) then Some (Ans a)
      else match m_question q with
           | [] => None
           | x :: _ =>
               let aRR := map (set_name (q_name x))
                              (filter (fun r => N.eqb (rr_type r) (q_type x) && N.eqb (rr_class r) (q_class x)) (m_answer a)) in
               Some (Ans (match aRR with
                          | [] => responseWithCode q nullRCode
                          | _ => set_answer aRR a
                          end))
           end
  | r => Some r
  end.

(** ** truncate-retry.go:34-46 Resolve: the queries each resolver got, and the result *)
Definition truncate_resolve (resolve retry : msg -> result) (q : msg) : list msg * list msg * result :=
  match resolve q with
  | Ans a => if m_tc a then ([q], [q], retry q) else ([q], [], Ans a)
  | r => ([q], [], r)
  end.
