(** fastest-tcp.go: ordering address records by TCP probes. *)
From Verif Require Import Base Bytes Dns.
Open Scope N_scope.

(** fastest-tcp.go:16 fastestTCPMaxProbes *)
Definition maxProbes : nat := 32.

(** fastest-tcp.go:80-88 the records to probe *)
Definition probe_set (T : N) (l : list rr) : list rr := firstn maxProbes (filter (fun r => rr_type r =? T) l).

(** What the probes do: (k, ok) for each one that finished, in the order in which they finished; those that
    did not finish before the deadline are not in the list. The pointer to record k of the probe set is k.
    fastest-tcp.go:194-223 probe: a record that is neither A nor AAAA data gives an error. *)
Notation arrivals := (list (nat * bool)).
Definition probe_ok (rrs : list rr) (x : nat * bool) : bool :=
  match nth_error rrs (fst x) with
  | Some r => match rr_data r with DA _ => snd x | DAAAA _ => snd x | _ => false end
  | None => false
  end.

(** fastest-tcp.go:153-160 the loop that moves the fastest record to the front: pointers in the list, and
    the pointer in the variable rr *)
Fixpoint rotate (held : nat) (l : list nat) : list nat :=
  match l with
  | [] => []
  | x :: l' => if Nat.eqb x held then l else held :: rotate x l'
  end.
(** fastest-tcp.go:142-161 probeFastest; None is an error *)
Definition probeFastest (rrs : list rr) (arr : arrivals) : option (list nat) :=
  match arr with
  | [] => None
  | x :: _ => if probe_ok rrs x then Some (rotate (fst x) (seq 0 (length rrs))) else None
  end.
(** fastest-tcp.go:165-182 probeAll *)
Fixpoint collect (rrs : list rr) (n : nat) (arr : arrivals) : option (list nat) :=
  match n with
  | O => Some []
  | S n' => match arr with
            | [] => None
            | x :: arr' => if probe_ok rrs x then option_map (cons (fst x)) (collect rrs n' arr') else None
            end
  end.
Definition probeAll (rrs : list rr) (arr : arrivals) : option (list nat) := collect rrs (length rrs) arr.

(** fastest-tcp.go:126-133 setTTL *)
Definition raise_ttl (ttlmin : N) (r : rr) : rr := if rr_ttl r <? ttlmin then set_ttl ttlmin r else r.

(** fastest-tcp.go:115-124 merging *)
Fixpoint merge (T : N) (l sorted : list rr) : list rr :=
  match l with
  | [] => []
  | r :: l' =>
      match sorted with
      | [] => l
      | s :: sorted' => if rr_type r =? T then s :: merge T l' sorted' else r :: merge T l' sorted
      end
  end.

(** fastest-tcp.go:64-123 Resolve; [r] is upstream's outcome; [None]: q.Question[0] panics *)
Definition fastest_tcp (waitAll : bool) (ttlmin : N) (arr : arrivals) (q : msg) (r : result) : option result :=
  match r with
  | Ans a =>
      match m_question q with
      | [] => None
      | x :: _ =>
          if negb (q_type x =? TypeA) && negb (q_type x =? TypeAAAA) then Some (Ans a)
          else
            let ips := probe_set (q_type x) (m_answer a) in
            if Nat.ltb (length ips) 2 then Some (Ans a)
            else
              match (if waitAll then probeAll ips arr else probeFastest ips arr) with
              | None => Some (Ans a)
              | Some order =>
                  let sorted := map (fun k => raise_ttl ttlmin (nth k ips (RR "" 0 0 0 (DOTHER [])))) order in
                  Some (Ans (set_answer (merge (q_type x) (m_answer a) sorted) a))
              end
      end
  | _ => Some r
  end.
