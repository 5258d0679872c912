(** Model of the stream adaptation of DTLS connections: dtlslistener.go dtlsConn. *)
From Verif Require Import Base Bytes.
Local Open Scope nat_scope.

(** What the connection receives: a record, or a failing read *)
Inductive input := Rec (d : bytes) | Fault.

(** dtls.Conn.Read with a buffer of 4096 octets: one record; one that does not fit is lost and
    gives an error, as does the end of the connection. Data, error, what is left. *)
Definition conn_read (l : list input) : bytes * bool * list input :=
  match l with
  | [] => ([], true, [])
  | Fault :: l => ([], true, l)
  | Rec d :: l => if Nat.ltb (N.to_nat 4096) (length d) then ([], true, l) else (d, false, l)
  end.

(** The state: the buffer (a nil one is the empty one) and what the connection will receive *)
Notation dtls := (bytes * list input)%type.

(** dtlslistener.go:108-120 Read with a slice of n octets: data and error *)
Definition dtls_read (n : nat) (s : dtls) : bytes * bool * dtls :=
  let '(buf, l) := s in
  let '(buf, err, l) :=
    match buf with
    | [] => let '(d, err, l) := conn_read l in (d, err, l)
    | _ => (buf, false, l)
    end in
  (firstn n buf, err, (skipn n buf, l)).

(** A sequence of reads *)
Fixpoint dtls_reads (sizes : list nat) (s : dtls) : list (bytes * bool) * dtls :=
  match sizes with
  | [] => ([], s)
  | n :: sizes =>
      let '(d, err, s) := dtls_read n s in
      let '(outs, s) := dtls_reads sizes s in ((d, err) :: outs, s)
  end.

(** io.ReadFull (n octets): reads until there are enough or one fails. [None] as state: out of fuel. *)
Fixpoint read_full (fuel n : nat) (s : dtls) : option (option bytes * dtls) :=
  if Nat.eqb n 0 then Some (Some [], s) else
  match fuel with
  | O => None
  | S fuel =>
      let '(d, err, s) := dtls_read n s in
      if Nat.leb n (length d) then Some (Some d, s)
      else if err then Some (None, s)
      else match read_full fuel (n - length d) s with
           | None => None
           | Some (Some r, s) => Some (Some (d ++ r), s)
           | Some (None, s) => Some (None, s)
           end
  end.
