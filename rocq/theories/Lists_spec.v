(** Specification of the list formats. *)
From Verif Require Import Base Bytes Dns Cidr_spec.
Local Open Scope N_scope.

(** *** MAC addresses *)
Definition hex_digits : string := "0123456789abcdef".
Definition digit_of (n : N) : ascii := match String.get (N.to_nat n) hex_digits with Some c => c | None => " "%char end.
Definition octet_text (b : N) : string := String (digit_of (b / 16)) (String (digit_of (b mod 16)) EmptyString).
(** The text of an address, in lower case *)
Definition mac_text (m : bytes) : string := String.concat ":" (map octet_text m).
(** s is the text of address m, in any letter case *)
Definition is_mac (s : string) (m : bytes) : Prop := length m = 6%nat /\ bytes_ok m /\ lower s = mac_text m.

(** The client's MAC address: the last 6-octet option 65001 of the EDNS0 record *)
Definition is_mac_option (o : edns0) (m : bytes) : Prop := o = LOCAL 65001 m /\ length m = 6%nat.
Definition client_mac (q : msg) (m : bytes) : Prop :=
  exists pre r post l o l', m_extra q = pre ++ r :: post /\ rr_type r = 41 /\ Forall (fun x => rr_type x <> 41) post /\
    rr_data r = DOPT (l ++ o :: l') /\ is_mac_option o m /\ Forall (fun o => forall m, ~ is_mac_option o m) l'.

(** *** Hosts files *)
Section Hosts.
Variable parseIP : string -> bytes.
Variable reverseAddr : string -> option string.

(** A line with an address and names; others have no effect. *)
Definition host_line (line : string) : option (string * list string) :=
  match fields (trim_space line) with
  | s :: n :: names => if has_prefix "#" s then None else Some (s, n :: names)
  | _ => None
  end.
Definition same_name (a b : string) : bool := equal_fold (trim_suffix dot a) (trim_suffix dot b).
(** The address of a line as answered: none for 0.0.0.0, :: and what is no address *)
Definition answer_addr (s : string) : bytes :=
  if (ipval (parseIP s) =? 0) || (ipval (parseIP s) =? 65535 * 2 ^ 32) then [] else parseIP s.
(** IPv4 addresses: ParseIP returns 16 octets *)
Definition v4_text (s : string) : bool := Nat.eqb (length (parseIP s)) 16 && (ipval (parseIP s) / 2 ^ 32 =? 65535).
(** The addresses given for a name, in order; v4 selects the family. *)
Definition addrs_of (v4 : bool) (name : string) (lines : list string) : list bytes :=
  flat_map (fun line => match host_line line with
                        | Some (s, names) => if Bool.eqb (v4_text s) v4 then map (fun _ => answer_addr s) (filter (same_name name) names) else []
                        | None => []
                        end) lines.
Definition named (name : string) (lines : list string) : Prop :=
  exists line s names n, In line lines /\ host_line line = Some (s, names) /\ In n names /\ same_name name n = true.
(** The names given for an address, in order; the address is given by its reverse name. *)
Definition names_of (reverse : string) (lines : list string) : list string :=
  flat_map (fun line => match host_line line with
                        | Some (s, names) => match reverseAddr s with Some r => if equal_fold r reverse then names else [] | None => [] end
                        | None => []
                        end) lines.
(** What is known of ParseIP and ReverseAddr: 16 octets or none; lower-case names *)
Definition ip_texts_ok : Prop :=
  (forall s, parseIP s = [] \/ (length (parseIP s) = 16%nat /\ bytes_ok (parseIP s))) /\
  (forall s r, reverseAddr s = Some r -> lower r = r).
End Hosts.

(** Octets as text, two lower-case digits each *)
Definition hex_digit (v : N) (c : ascii) : Prop := String.get (N.to_nat v) "0123456789abcdef" = Some c.
Inductive hex_text : bytes -> string -> Prop :=
| hex_nil : hex_text [] ""
| hex_cons : forall hi lo c d l s, hex_digit hi c -> hex_digit lo d -> hex_text l s -> hex_text (16 * hi + lo :: l)%N (String c (String d s)).
