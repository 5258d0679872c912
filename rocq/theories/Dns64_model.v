(** dns64.go: AAAA records made from A records. *)
From Verif Require Import Base Bytes Net Dns Cidr_model Router_model.
Open Scope N_scope.

(** dns64.go:32-35 dns64Prefix *)
Record d64prefix := D64Prefix { p64_ip : bytes; p64_len : nat }.

(** dns64.go:247-269 parseDNS64Prefixes; Mask.Size gives the two numbers of ParseCIDR *)
Definition d64_lengths : list nat := [32; 40; 48; 56; 64; 96]%nat.
Definition parse_prefix (parseAddr : string -> option bytes) (s : string) : option d64prefix :=
  match parseCIDR parseAddr s with
  | None => None
  | Some (_, n) =>
      if negb (Nat.eqb (c_bits n) 128) then None
      else if negb (existsb (Nat.eqb (c_ones n)) d64_lengths) then None
      else Some (D64Prefix (match to16 (c_ip n) with Some x => x | None => [] end) (c_ones n))
  end.
Definition parseDNS64Prefixes (parseAddr : string -> option bytes) (l : list string) : option (list d64prefix) :=
  all_some (parse_prefix parseAddr) l.
(** dns64.go:47-54 NewDNS64 *)
Definition newDNS64 (parseAddr : string -> option bytes) (l : list string) : option (list d64prefix) :=
  parseDNS64Prefixes parseAddr (match l with [] => ["64:ff9b::/96"%string] | _ => l end).

(** ipv6[i] = v *)
Fixpoint put (i : nat) (v : N) (l : bytes) : bytes :=
  match l, i with
  | _ :: l', O => v :: l'
  | x :: l', S i' => x :: put i' v l'
  | [], _ => []
  end.
Fixpoint puts (ps : list (nat * N)) (l : bytes) : bytes :=
  match ps with [] => l | (i, v) :: ps' => puts ps' (put i v l) end.

(** dns64.go:200-244 synthesizeIPv6 *)
Definition synthesizeIPv6 (prefix : d64prefix) (ipv4 : bytes) : bytes :=
  let b i := nth i ipv4 0 in
  let ipv6 := firstn 16 (p64_ip prefix ++ repeat 0 16) in
  let is n := Nat.eqb (p64_len prefix) n in
  if is 96%nat then puts [(12%nat, b 0%nat); (13%nat, b 1%nat); (14%nat, b 2%nat); (15%nat, b 3%nat)] ipv6
  else if is 64%nat then puts [(8%nat, 0); (9%nat, b 0%nat); (10%nat, b 1%nat); (11%nat, b 2%nat); (12%nat, b 3%nat)] ipv6
  else if is 56%nat then puts [(7%nat, b 0%nat); (8%nat, 0); (9%nat, b 1%nat); (10%nat, b 2%nat); (11%nat, b 3%nat)] ipv6
  else if is 48%nat then puts [(6%nat, b 0%nat); (7%nat, b 1%nat); (8%nat, 0); (9%nat, b 2%nat); (10%nat, b 3%nat)] ipv6
  else if is 40%nat then puts [(5%nat, b 0%nat); (6%nat, b 1%nat); (7%nat, b 2%nat); (8%nat, 0); (9%nat, b 3%nat)] ipv6
  else if is 32%nat then puts [(4%nat, b 0%nat); (5%nat, b 1%nat); (6%nat, b 2%nat); (7%nat, b 3%nat); (8%nat, 0)] ipv6
  else ipv6.

(** dns64.go:155-185 synthesizeAAAA *)
Definition is_cname (r : rr) : bool := match rr_data r with DCNAME _ => true | _ => false end.
Definition synth_record (prefixes : list d64prefix) (x : question) (r : rr) : list rr :=
  match rr_data r with
  | DA ip =>
      match to4 ip with
      | None => []
      | Some ipv4 => map (fun p => RR (q_name x) TypeAAAA (q_class x) (rr_ttl r) (DAAAA (synthesizeIPv6 p ipv4))) prefixes
      end
  | _ => []
  end.
Definition synthesizeAAAA (prefixes : list d64prefix) (aAnswer : msg) (x : question) : list rr :=
  let cnames := filter is_cname (m_answer aAnswer) in
  let aaaa := flat_map (synth_record prefixes x) (m_answer aAnswer) in
  match aaaa with [] => [] | _ => cnames ++ aaaa end.

(** dns64.go:188-195 hasAAAARecords *)
Definition hasAAAARecords (m : msg) : bool := existsb (fun r => rr_type r =? TypeAAAA) (m_answer m).

(** dns64.go:112-113 aQuery *)
Definition a_query (q : msg) : msg :=
  match m_question q with
  | [] => q
  | x :: l => set_question (Q (q_name x) TypeA (q_class x) :: l) q
  end.

(** dns64.go:71-146 Resolve: the queries sent upstream, and the result; [None]: q.Question[0] panics *)
Definition dns64_resolve (prefixes : list d64prefix) (resolve : msg -> result) (q : msg) : option (list msg * result) :=
  match m_question q with
  | [] => None
  | x :: _ =>
      if negb (q_type x =? TypeAAAA) then Some ([q], resolve q)
      else if match is_edns0 q with Some o => opt_do o | None => false end then Some ([q], resolve q)
      else
        match resolve q with
        | Err e => Some ([q], Err e)
        | Drop => Some ([q], Drop)
        | Ans answer =>
            if negb (m_rcode answer =? RcodeSuccess) then Some ([q], Ans answer)
            else if hasAAAARecords answer then Some ([q], Ans answer)
            else
              let aq := a_query q in
              match resolve aq with
              | Err _ => Some ([q; aq], Ans answer)
              | Drop => Some ([q; aq], Ans answer)
              | Ans aAnswer =>
                  if negb (m_rcode aAnswer =? RcodeSuccess) then Some ([q; aq], Ans answer)
                  else
                    match synthesizeAAAA prefixes aAnswer x with
                    | [] => Some ([q; aq], Ans answer)
                    | synthesized =>
                        Some ([q; aq], Ans (set_extra (m_extra aAnswer) (set_ns (m_ns aAnswer)
                                             (set_answer synthesized (set_ra (m_ra answer) (set_reply empty_msg q))))))
                    end
              end
        end
  end.
