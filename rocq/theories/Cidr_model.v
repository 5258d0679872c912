(** Model of ip-blocklist-trie.go and cidr-db.go. net.ParseCIDR of the standard library is modelled
    from its documentation with netip.ParseAddr as an oracle. *)
From Verif Require Import Base Bytes Net.
Open Scope nat_scope.

(** *net.IPNet as ParseCIDR returns it: the masked address and Mask.Size() *)
Record cidr := Cidr { c_ip : bytes; c_ones : nat; c_bits : nat }.

(** ip-blocklist-trie.go:15-18 ipBlocklistNode; None is a nil pointer *)
Inductive node := Nd (left right : option node) (leaf : bool).
Definition is_leaf (p : node) : bool := match p with Nd _ _ b => b end.
Definition new_node : node := Nd None None false.

(** ip-blocklist-trie.go:110-117 bit; [None] is an index out of range *)
Definition bitMask : list N := [128; 64; 32; 16; 8; 4; 2; 1]%N.
Definition bit (ip : bytes) (n : nat) : option bool :=
  match nth_error ip (n / 8) with
  | None => None
  | Some b => match nth_error bitMask (n mod 8) with
              | None => None
              | Some m => Some (negb (N.eqb (N.land b m) 0))
              end
  end.

(** ip-blocklist-trie.go:21-50 add, the loop from node [p] at depth [i] with [k] rounds to go and
    the marking of the node it ends at; [None] is a panic *)
Fixpoint add_from (ip : bytes) (k i : nat) (p : node) : option node :=
  match k with
  | O => Some (Nd None None true)
  | S k' =>
      match p with
      | Nd l r true => Some (Nd None None true)
      | Nd l r false =>
          match bit ip i with
          | None => None
          | Some true =>
              match add_from ip k' (S i) (match r with Some x => x | None => new_node end) with
              | None => None
              | Some x => Some (Nd l (Some x) false)
              end
          | Some false =>
              match add_from ip k' (S i) (match l with Some x => x | None => new_node end) with
              | None => None
              | Some x => Some (Nd (Some x) r false)
              end
          end
      end
  end.
Definition trie_add (t : option node) (n : cidr) : option (option node) :=
  match add_from (c_ip n) (c_ones n) 0 (match t with Some x => x | None => new_node end) with
  | None => None
  | Some x => Some (Some x)
  end.

(** ip-blocklist-trie.go:83-94 ruleString, as the network that is printed *)
Definition ruleString (ip : bytes) (maskBits : nat) : cidr :=
  let size := match to4 ip with Some _ => 4 | None => 16 end in
  Cidr (land_bytes ip (mask_bytes maskBits size)) maskBits (8 * size).

(** ip-blocklist-trie.go:62-80, the loop of hasIP: [Some (Some i)] is a match with i bits *)
Fixpoint walk (ip : bytes) (k i : nat) (p : node) : option (option nat) :=
  match k with
  | O => Some (Some i)
  | S k' =>
      match p with
      | Nd l r leaf =>
          if leaf then Some (Some i)
          else match bit ip i with
               | None => None
               | Some b => match (if b then r else l) with
                           | None => Some None
                           | Some q => walk ip k' (S i) q
                           end
               end
      end
  end.

(** ip-blocklist-trie.go:54-81 hasIP *)
Definition hasIP (t : option node) (ip : bytes) : option (option cidr) :=
  match t with
  | None => Some None
  | Some p =>
      let '(ip, size) := match to4 ip with Some a => (a, 32) | None => (ip, 128) end in
      match walk ip size 0 p with
      | None => None
      | Some None => Some None
      | Some (Some i) => Some (Some (ruleString ip i))
      end
  end.

(** The decimal prefix length of ParseCIDR: net.dtoi and the check that it read everything *)
Definition digit (c : ascii) : option N :=
  let n := N_of_ascii c in if N.leb 48 n && N.leb n 57 then Some (n - 48)%N else None.
Fixpoint dtoi_from (acc : N) (s : string) : option N :=
  match s with
  | EmptyString => Some acc
  | String c s' =>
      match digit c with
      | None => None
      | Some d => let n := (acc * 10 + d)%N in
                  if N.leb 16777215 n then None else dtoi_from n s'
      end
  end.
Definition dtoi (s : string) : option N := match s with EmptyString => None | _ => dtoi_from 0 s end.

Definition slash : ascii := "/"%char.
(** strings.Cut at the first slash *)
Fixpoint cut_slash (s : string) : option (string * string) :=
  match s with
  | EmptyString => None
  | String c s' => if Ascii.eqb c slash then Some (EmptyString, s')
                   else match cut_slash s' with Some (a, b) => Some (String c a, b) | None => None end
  end.

Section Parse.
(** netip.ParseAddr for addresses without a zone: 4 bytes for IPv4, 16 for IPv6 *)
Variable parseAddr : string -> option bytes.

(** net.ParseCIDR: the address as 16 bytes, and the network *)
Definition parseCIDR (s : string) : option (bytes * cidr) :=
  match cut_slash s with
  | None => None
  | Some (addr, mask) =>
      match parseAddr addr, dtoi mask with
      | Some a, Some n =>
          let len := length a in
          if N.leb n (N.of_nat (8 * len)) then
            let p := N.to_nat n in
            Some (match to16 a with Some x => x | None => a end, Cidr (land_bytes a (mask_bytes p len)) p (8 * len))
          else None
      | _, _ => None
      end
  end.

Record cidrdb := CidrDB { ip4 : option node; ip6 : option node }.

(** cidr-db.go:28-40, the text given to ParseCIDR; None is a line that is skipped *)
Definition rule_text (r : string) : option string :=
  let r := trim_space r in
  if has_prefix "#" r || String.eqb r "" then None
  else Some (if contains slash r then r
             else if contains dot r then (r ++ "/32")%string
             else if contains ":"%char r then (r ++ "/128")%string
             else r).

(** cidr-db.go:28-51, the loop of NewCidrDB. The outer [None] is an error or a panic. *)
Fixpoint load_rules (rules : list string) (db : cidrdb) : option cidrdb :=
  match rules with
  | [] => Some db
  | r :: rules' =>
      match rule_text r with
      | None => load_rules rules' db
      | Some s =>
          match parseCIDR s with
          | None => None
          | Some (ip, n) =>
              match to4 ip with
              | None => match trie_add (ip6 db) n with
                        | None => None
                        | Some t => load_rules rules' (CidrDB (ip4 db) t)
                        end
              | Some _ => match trie_add (ip4 db) n with
                          | None => None
                          | Some t => load_rules rules' (CidrDB t (ip6 db))
                          end
              end
          end
      end
  end.

(** cidr-db.go:17-53 NewCidrDB on the lines the loader returned *)
Definition newCidrDB (rules : list string) : option cidrdb := load_rules rules (CidrDB None None).
End Parse.

(** cidr-db.go:60-72 Match. Outer [None] is a panic; [Some None] is no match. *)
Definition cidr_match (db : cidrdb) (ip : bytes) : option (option cidr) :=
  if Nat.eqb (length ip) 0 then Some None
  else match to4 ip with
       | None => hasIP (ip6 db) ip
       | Some _ => hasIP (ip4 db) ip
       end.
