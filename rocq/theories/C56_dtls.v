(** C56: reading DTLS connections as a stream (dtlslistener.go dtlsConn.Read). *)
From Verif Require Import Base Bytes Dtls_model Dtls_spec Dtls_proofs.
Local Open Scope nat_scope.

(** Whatever the sizes of the reads: what they return, followed by what is still to come, is what
    the records carry; no read returns more than asked for. *)
Theorem C56_order sizes s outs s' : dtls_reads sizes s = (outs, s') ->
  stream s = List.concat (map fst outs) ++ stream s' /\ Forall2 (fun o n => length (fst o) <= n) outs sizes.
Proof. exact (reads_stream sizes s outs s'). Qed.
Print Assumptions C56_order.

(** Nothing stays behind: as many reads as there are octets and records deliver everything. *)
Theorem C56_complete sizes s outs s' : dtls_reads sizes s = (outs, s') -> Forall (fun n => 0 < n) sizes ->
  length (fst s) + length (snd s) + length (record_data (snd s)) <= length sizes -> stream s' = [].
Proof. exact (reads_all sizes s outs s'). Qed.
Print Assumptions C56_complete.

(** Failures of the connection, and records of more than 4096 octets, are reported, each once. *)
Theorem C56_errors sizes s outs s' : dtls_reads sizes s = (outs, s') -> Forall (fun n => 0 < n) sizes ->
  length (filter snd outs) >= faults (snd s) - faults (snd s') /\
  (snd s' <> [] -> length (filter snd outs) + faults (snd s') = faults (snd s)).
Proof. exact (reads_errors sizes s outs s'). Qed.
Print Assumptions C56_errors.

(** What the DNS library does, two octets and then the message, gets exactly the next octets of the
    stream however they are spread over records. *)
Theorem C56_full fuel n s : faults (snd s) = 0 -> n <= length (stream s) -> length (fst s) + length (snd s) + length (record_data (snd s)) <= fuel ->
  exists s', read_full fuel n s = Some (Some (firstn n (stream s)), s') /\ stream s' = skipn n (stream s) /\ faults (snd s') = 0 /\
    length (fst s') + length (snd s') + length (record_data (snd s')) <= length (fst s) + length (snd s) + length (record_data (snd s)).
Proof. exact (full_read fuel n s). Qed.
Print Assumptions C56_full.

(** Examples *)
Example C56_ex : dtls_reads [2; 3; 9; 1; 1; 5] ([], [Rec [0;5;1;2]%N; Rec []; Rec [3;4;5]%N; Fault])
  = ([([0;5]%N, false); ([1;2]%N, false); ([], false); ([3]%N, false); ([4]%N, false); ([5]%N, false)], ([], [Fault])).
Proof. vm_compute. reflexivity. Qed.
Example C56_full_ex : read_full 10 5 ([7]%N, [Rec [0;5;1]%N; Rec []; Rec [3;4;5]%N]) = Some (Some [7;0;5;1;3]%N, ([4;5]%N, [])).
Proof. vm_compute. reflexivity. Qed.
Example C56_short : read_full 10 5 ([7]%N, [Rec [0]%N; Fault; Rec [3;4;5]%N]) = Some (None, ([], [Rec [3;4;5]%N])).
Proof. vm_compute. reflexivity. Qed.
