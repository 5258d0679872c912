(** Blocklist databases other than the domain trie: blocklistdb.go, blocklistdb-hosts.go,
    blocklistdb-regexp.go, blocklistdb-multi.go, mac-db.go. *)
From Verif Require Import Base Bytes Dns Net Cidr_model.
Local Open Scope N_scope.

(** blocklistdb.go:16-31, what Match returns: addresses ([] is a nil net.IP), names, the
    BlocklistMatch (list and rule) if not nil, and whether there is a match. *)
Record mres := MRes { mr_ips : list bytes; mr_names : list string; mr_match : option (string * string); mr_ok : bool }.
Definition no_match : mres := MRes [] [] None false.

(** *** mac-db.go *)
(** encoding/hex: value of a digit *)
Definition hexval (c : ascii) : option N :=
  let n := N_of_ascii c in
  if (48 <=? n) && (n <=? 57) then Some (n - 48)
  else if (97 <=? n) && (n <=? 102) then Some (n - 87)
  else if (65 <=? n) && (n <=? 70) then Some (n - 55)
  else None.
(** hex.Decode *)
Fixpoint hex_decode (s : list ascii) : option bytes :=
  match s with
  | [] => Some []
  | a :: b :: s' => match hexval a, hexval b, hex_decode s' with
                    | Some x, Some y, Some r => Some (x * 16 + y :: r)
                    | _, _, _ => None
                    end
  | _ => None
  end.
Definition colon : ascii := ":"%char.
(** mac-db.go:102-121 parseMAC *)
Definition parseMAC (addr : string) : option bytes :=
  let b := list_ascii_of_string addr in
  if negb (Nat.eqb (length b) 17) then None
  else if negb (forallb (fun i => Ascii.eqb (nth (i * 3 + 2) b "000"%char) colon) (seq 0 5)) then None
  else match hex_decode (filter (fun c => negb (Ascii.eqb c colon)) b) with
       | Some out => if Nat.eqb (length out) 6 then Some out else None
       | None => None
       end.

(** mac-db.go:24-47 NewMACDB on the lines the loader returned; [None] is an error. *)
Fixpoint newMACDB (rules : list string) : option (list bytes) :=
  match rules with
  | [] => Some []
  | r :: rules' =>
      let r := trim_space r in
      if has_prefix "#" r || String.eqb r "" then newMACDB rules'
      else match parseMAC r, newMACDB rules' with
           | Some mac, Some l => Some (mac :: l)
           | _, _ => None
           end
  end.

Definition bytes_eqb (a b : bytes) : bool := if list_eq_dec N.eq_dec a b then true else false.
(** mac-db.go:60-77, the option that is used; [] if there is none *)
Definition opt65001 (opts : list edns0) : bytes :=
  fold_left (fun d o => match o with
                        | LOCAL code data => if negb (N.eqb code 65001) then d else if negb (Nat.eqb (length data) 6) then d else data
                        | _ => d
                        end) opts [].
(** hex.EncodeToString *)
Definition hexdigit (n : N) : ascii := ascii_of_N (if n <? 10 then 48 + n else 87 + n).
Definition hex_encode (l : bytes) : string :=
  string_of_list_ascii (flat_map (fun b => [hexdigit (b / 16); hexdigit (b mod 16)]) l).
(** mac-db.go:52-90 Match *)
Definition mac_match (name : string) (macs : list bytes) (q : msg) : mres :=
  match is_edns0 q with
  | None => no_match
  | Some o =>
      let d := opt65001 (opt_options o) in
      if negb (Nat.eqb (length d) 6) then no_match
      else match find (fun mac => bytes_eqb mac d) macs with
           | Some mac => MRes [] [] (Some (name, hex_encode mac)) true
           | None => no_match
           end
  end.

(** *** blocklistdb-regexp.go *)
Section Regexp.
Variable compile : string -> option (string -> bool).
(** blocklistdb-regexp.go:21-41 NewRegexpDB: the rules with their text *)
Fixpoint newRegexpDB (rules : list string) : option (list (string * (string -> bool))) :=
  match rules with
  | [] => Some []
  | r :: rules' =>
      let r := trim_space r in
      if String.eqb r "" || has_prefix "#" r then newRegexpDB rules'
      else match compile r, newRegexpDB rules' with
           | Some re, Some l => Some ((r, re) :: l)
           | _, _ => None
           end
  end.
(** blocklistdb-regexp.go:47-56 Match; without a question it panics ([None]). *)
Definition regexp_match (name : string) (rules : list (string * (string -> bool))) (q : msg) : option mres :=
  match m_question q with
  | [] => None
  | x :: _ =>
      Some (match find (fun r => snd r (lower (q_name x))) rules with
            | Some r => MRes [] [] (Some (name, fst r)) true
            | None => no_match
            end)
  end.
End Regexp.

(** *** blocklistdb-multi.go:33-40 Match *)
Fixpoint multi_match (dbs : list (msg -> option mres)) (q : msg) : option mres :=
  match dbs with
  | [] => Some no_match
  | db :: dbs' => match db q with
                  | None => None
                  | Some r => if mr_ok r then Some r else multi_match dbs' q
                  end
  end.

(** *** blocklistdb-hosts.go *)
(** Go maps from strings *)
Definition smap (A : Type) := list (string * A).
Fixpoint sget {A} (m : smap A) (k : string) : option A :=
  match m with [] => None | (k', v) :: m' => if String.eqb k k' then Some v else sget m' k end.
Definition sput {A} (m : smap A) (k : string) (v : A) : smap A := (k, v) :: m.

(** blocklistdb-hosts.go:23-26 ipRecords; a nil net.IP is []. *)
Record iprecords := IpRecords { ir_ip4 : list bytes; ir_ip6 : list bytes }.
Record hostsdb := HostsDB { filters : smap iprecords; ptrMap : smap (list string) }.
Definition maxHostsResponses : nat := 10.

Section Hosts.
(** net.ParseIP ([] is nil) and dns.ReverseAddr *)
Variable parseIP : string -> bytes.
Variable reverseAddr : string -> option string.

(** blocklistdb-hosts.go:58-74, one name of a line *)
Definition add_name (isIP4 : bool) (ip : bytes) (m : smap iprecords) (name : string) : smap iprecords :=
  let name := lower (trim_suffix dot name) in
  let ips := match sget m name with Some r => r | None => IpRecords [] [] end in
  if isIP4 then
    if Nat.ltb maxHostsResponses (length (ir_ip4 ips)) then m
    else sput m name (IpRecords (ir_ip4 ips ++ [ip]) (ir_ip6 ips))
  else
    if Nat.ltb maxHostsResponses (length (ir_ip6 ips)) then m
    else sput m name (IpRecords (ir_ip4 ips) (ir_ip6 ips ++ [ip])).

(** net.IP.IsUnspecified: 0.0.0.0 or :: *)
Definition isUnspecified (ip : bytes) : bool :=
  bytes_eqb (canon ip) (repeat 0 4) || bytes_eqb ip (repeat 0 16).

(** blocklistdb-hosts.go:38-81, one line *)
Definition add_line (db : hostsdb) (r : string) : hostsdb :=
  match fields (trim_space r) with
  | [] => db
  | ipString :: names =>
      if has_prefix "#" ipString then db
      else match names with
           | [] => db
           | _ =>
               let ip := parseIP ipString in
               let isIP4 := match to4 ip with Some _ => true | None => false end in
               let ip := if isUnspecified ip then [] else ip in
               let f := fold_left (add_name isIP4 ip) names (filters db) in
               match reverseAddr ipString with
               | None => HostsDB f (ptrMap db)
               | Some reverse =>
                   HostsDB f (sput (ptrMap db) reverse (match sget (ptrMap db) reverse with Some l => l | None => [] end ++ names))
               end
           end
  end.
(** blocklistdb-hosts.go:30-83 NewHostsDB on the lines the loader returned *)
Definition newHostsDB (rules : list string) : hostsdb := fold_left add_line rules (HostsDB [] []).
End Hosts.

(** blocklistdb-hosts.go:89-120 Match *)
Definition hosts_match (listname : string) (db : hostsdb) (q : msg) : option mres :=
  match m_question q with
  | [] => None
  | x :: _ =>
      Some (
      if N.eqb (q_type x) TypePTR then
        let r := sget (ptrMap db) (lower (q_name x)) in
        let names := match r with Some l => l | None => [] end in
        MRes [] names (Some (listname, match names with n :: _ => n | [] => EmptyString end))
             (match r with Some _ => true | None => false end)
      else
        let name := lower (trim_suffix dot (q_name x)) in
        let r := sget (filters db) name in
        let ips := match r with Some v => v | None => IpRecords [] [] end in
        MRes (if N.eqb (q_type x) TypeA then ir_ip4 ips else ir_ip6 ips) [] (Some (listname, name))
             (match r with Some _ => true | None => false end))
  end.
