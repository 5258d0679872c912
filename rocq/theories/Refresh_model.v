(** The refresh loops of blocklists beside the queries: blocklist.go:196-225, client-blocklist.go:112-141, response-blocklist-ip.go:85-113,
    response-blocklist-name.go:64-88, with the RWMutex between them, and the Reload functions of the databases. *)
From Verif Require Import Base.

(** Databases by number, in the order of their creation *)
Notation db := nat.
Record config := Config {
  snap : bool;      (* matching happens after the lock was released, blocklist.go:94-97 *)
  closes : bool;    (* the old database is closed, client-blocklist.go:139, response-blocklist-ip.go:111 *)
  leaks : bool      (* a failing Reload leaves a database file open, geoip-db.go:28-36, asn-db.go:30-38, ip-db-multi.go:19-29 *)
}.
(** A refresh loop *)
Inductive rpc := Sleep | Loaded (d : db) | Locked (d : db) | Assigned (old : db) | Unlocked (old : db).
(** A query: before the lock, holding it (with the fields read so far), with copies of the fields but without the lock, done *)
Inductive qpc := Start | InLock (ds : list db) | Snapped (ds : list db) | Finished.
Inductive event := Install (j : nat) (d : db) | Begin (i : nat) | Match (i : nat) (ds : list db).
Record sys := Sys { s_cur : list db; s_next : db; s_closed : list db; s_loops : list rpc; s_queries : list qpc; s_log : list event (* newest first *) }.

Definition writing (p : rpc) : Prop := match p with Locked _ | Assigned _ => True | _ => False end.
Definition reading (p : qpc) : Prop := match p with InLock _ => True | _ => False end.

(** Fields: allowlist and blocklist in blocklist.go, one elsewhere; each has a loop of its own (none runs if there is no refresh period). *)
Inductive step (c : config) : sys -> sys -> Prop :=
(* Reload *)
| r_fail s : step c s s
| r_leak cur n cl ps qs lg : leaks c = true -> step c (Sys cur n cl ps qs lg) (Sys cur (S n) cl ps qs lg)
| r_load cur n cl p1 p2 qs lg : step c (Sys cur n cl (p1 ++ Sleep :: p2) qs lg) (Sys cur (S n) cl (p1 ++ Loaded n :: p2) qs lg)
(* r.mu.Lock() *)
| r_lock cur n cl p1 d p2 qs lg : Forall (fun p => ~ writing p) (p1 ++ Loaded d :: p2) -> Forall (fun q => ~ reading q) qs ->
    step c (Sys cur n cl (p1 ++ Loaded d :: p2) qs lg) (Sys cur n cl (p1 ++ Locked d :: p2) qs lg)
| r_swap c1 old c2 n cl p1 d p2 qs lg : length c1 = length p1 ->
    step c (Sys (c1 ++ old :: c2) n cl (p1 ++ Locked d :: p2) qs lg) (Sys (c1 ++ d :: c2) n cl (p1 ++ Assigned old :: p2) qs (Install (length p1) d :: lg))
| r_unlock cur n cl p1 old p2 qs lg : step c (Sys cur n cl (p1 ++ Assigned old :: p2) qs lg) (Sys cur n cl (p1 ++ Unlocked old :: p2) qs lg)
(* old.Close() *)
| r_close cur n cl p1 old p2 qs lg : step c (Sys cur n cl (p1 ++ Unlocked old :: p2) qs lg) (Sys cur n (if closes c then old :: cl else cl) (p1 ++ Sleep :: p2) qs lg)
(* r.mu.RLock() *)
| q_lock cur n cl ps q1 q2 lg : Forall (fun p => ~ writing p) ps ->
    step c (Sys cur n cl ps (q1 ++ Start :: q2) lg) (Sys cur n cl ps (q1 ++ InLock [] :: q2) (Begin (length q1) :: lg))
| q_read cur n cl ps q1 ds d q2 lg : nth_error cur (length ds) = Some d ->
    step c (Sys cur n cl ps (q1 ++ InLock ds :: q2) lg) (Sys cur n cl ps (q1 ++ InLock (ds ++ [d]) :: q2) lg)
| q_snap cur n cl ps q1 ds q2 lg : snap c = true -> length ds = length cur ->
    step c (Sys cur n cl ps (q1 ++ InLock ds :: q2) lg) (Sys cur n cl ps (q1 ++ Snapped ds :: q2) lg)
(* Match, and the end of the use of the databases *)
| q_match cur n cl ps q1 ds q2 lg : snap c = true ->
    step c (Sys cur n cl ps (q1 ++ Snapped ds :: q2) lg) (Sys cur n cl ps (q1 ++ Finished :: q2) (Match (length q1) ds :: lg))
| q_match_locked cur n cl ps q1 ds q2 lg : snap c = false -> length ds = length cur ->
    step c (Sys cur n cl ps (q1 ++ InLock ds :: q2) lg) (Sys cur n cl ps (q1 ++ Finished :: q2) (Match (length q1) ds :: lg)).
Inductive steps (c : config) : sys -> sys -> Prop :=
| steps_refl s : steps c s s
| steps_step s s' s'' : steps c s s' -> step c s' s'' -> steps c s s''.
Definition start (fields queries : nat) : sys := Sys (seq 0 fields) fields [] (repeat Sleep fields) (repeat Start queries) [].

(** blocklistdb-multi.go:21-31, ip-db-multi.go:19-29 Reload; [reload] is that of the parts, None an error *)
Fixpoint multi_reload {A B} (reload : A -> option B) (dbs : list A) : option (list B) :=
  match dbs with
  | [] => Some []
  | d :: dbs' => match reload d with None => None | Some n => match multi_reload reload dbs' with None => None | Some l => Some (n :: l) end end
  end.
