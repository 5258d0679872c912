(** C03: CIDR lists (cidr-db.go, ip-blocklist-trie.go). *)
From Verif Require Import Base Bytes Net Cidr_model Cidr_spec Cidr_proofs3.
Local Open Scope string_scope.

(** A list loads exactly if every line is blank, a comment, an address or a network. *)
Theorem C03_load parseAddr rules : parse_ok parseAddr ->
  ((exists db, newCidrDB parseAddr rules = Some db) <->
   (forall line, In line rules -> blank line \/ exists a p, rule_of parseAddr line a p)).
Proof. exact (fun H => load_total parseAddr H rules _). Qed.
Print Assumptions C03_load.

(** An address matches exactly if a loaded network contains it, and the rule reported is such a
    network, printed with its first address. The network of a line is the one written in it, with two
    exceptions spelled out in [effective]. *)
Theorem C03_match parseAddr rules db ip x : parse_ok parseAddr ->
  newCidrDB parseAddr rules = Some db -> ip_ok ip -> plain_addr ip x ->
  match cidr_match db ip with
  | None => False
  | Some None => forall line a p, In line rules -> effective parseAddr line a p -> ~ in_net a p x
  | Some (Some r) => exists line a p, In line rules /\ effective parseAddr line a p /\ in_net a p x /\
                       c_ones r = p /\ c_bits r = (8 * length a)%nat /\ first_addr a p (c_ip r)
  end.
Proof. exact (fun H => match_spec parseAddr H rules db ip x). Qed.
Print Assumptions C03_match.

(** For all other lines it is the network that is written. *)
Theorem C03_regular parseAddr line : regular parseAddr line ->
  forall a p, effective parseAddr line a p <-> rule_of parseAddr line a p.
Proof. exact (regular_effective parseAddr line). Qed.
Print Assumptions C03_regular.

(** Order and repetition of the lines do not matter. *)
Theorem C03_order parseAddr rules rules' db db' ip x : parse_ok parseAddr ->
  (forall line, In line rules <-> In line rules') ->
  newCidrDB parseAddr rules = Some db -> newCidrDB parseAddr rules' = Some db' ->
  ip_ok ip -> plain_addr ip x ->
  (cidr_match db ip = Some None <-> cidr_match db' ip = Some None).
Proof. exact (fun H => match_order parseAddr H rules rules' db db' ip x). Qed.
Print Assumptions C03_order.

(** No address matches nothing. *)
Theorem C03_nil db : cidr_match db [] = Some None.
Proof. exact eq_refl. Qed.
Print Assumptions C03_nil.

(** A network inside ::ffff:0:0/96 is loaded but blocks 0.0.0.0 instead of its addresses. *)
Theorem C03_mapped_refuted : exists parseAddr line db a p,
  parse_ok parseAddr /\ newCidrDB parseAddr [line] = Some db /\ rule_of parseAddr line a p /\
  (exists ip, ip_ok ip /\ in_net a p ip /\ cidr_match db ip = Some None) /\
  (exists ip, ip_ok ip /\ ~ in_net a p ip /\ cidr_match db ip <> Some None).
Proof. exact mapped_refuted. Qed.
Print Assumptions C03_mapped_refuted.

(** A single IPv6 address written with a dotted quad becomes a /32. *)
Theorem C03_dotted_refuted : exists parseAddr line db a p,
  parse_ok parseAddr /\ newCidrDB parseAddr [line] = Some db /\ rule_of parseAddr line a p /\
  exists ip, ip_ok ip /\ ~ mapped ip /\ ~ in_net a p ip /\ cidr_match db ip <> Some None.
Proof. exact dotted_refuted. Qed.
Print Assumptions C03_dotted_refuted.

(** A list with nested networks, a comment and a single address *)
Example C03_demo :
  match newCidrDB demo_parse demo_rules with
  | None => False
  | Some db =>
      cidr_match db [10;1;2;3]%N = Some (Some (Cidr [10;0;0;0]%N 8 32)) /\
      cidr_match db [11;1;2;3]%N = Some None /\
      cidr_match db [0;0;0;0;0;0;0;0;0;0;255;255;10;9;9;9]%N = Some (Some (Cidr [10;0;0;0]%N 8 32)) /\
      cidr_match db ([32;1;13;184] ++ repeat 0 11 ++ [1])%list%N = Some (Some (Cidr ([32;1;13;184] ++ repeat 0 11 ++ [1])%list%N 128 128))
  end.
Proof. vm_compute. repeat split. Qed.
Example C03_demo_hyps : parse_ok demo_parse /\ Forall (regular demo_parse) demo_rules.
Proof. exact demo_hyps. Qed.
(** The exceptions, matching and not matching *)
Example C03_odd :
  match newCidrDB demo_parse ["::ffff:1.2.3.0/120"; "64:ff9b::1.2.3.4"] with
  | None => False
  | Some db =>
      cidr_match db [0;0;0;0]%N = Some (Some (Cidr [0;0;0;0]%N 32 32)) /\
      cidr_match db [1;2;3;0]%N = Some None /\
      cidr_match db ([0;100;255;155] ++ repeat 0 12)%list%N = Some (Some (Cidr ([0;100;255;155] ++ repeat 0 12)%list%N 32 128))
  end.
Proof. vm_compute. repeat split. Qed.
