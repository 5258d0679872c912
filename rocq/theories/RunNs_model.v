(** netns_linux.go: running a function in another network namespace. Threads and namespaces are numbers; thread 0 is the main thread of
    the process, namespace 0 the one it was started in. Linux: /proc/self/ns/net names the namespace of the main thread, setns changes that of the
    calling thread. Go: a goroutine that called LockOSThread has its thread for itself until UnlockOSThread. *)
From Verif Require Import Base.
Local Open Scope nat_scope.

(** netns_linux.go:22-25 NetNS *)
Record netns := NetNS { ns_name : string; ns_xsocket : string }.
(** netns_linux.go:28-35 isSet, usesXSocket *)
Definition isSet (ns : option netns) : bool := match ns with None => false | Some n => negb (String.eqb (ns_name n) "") || negb (String.eqb (ns_xsocket n) "") end.
Definition usesXSocket (ns : option netns) : bool := match ns with None => false | Some n => negb (String.eqb (ns_xsocket n) "") end.
(** netns_linux.go:48-53 the start of RunInNetNS: refuse, call the function at once, or switch to the namespace of that name *)
Inductive how := Refuse | Direct | Switch (name : string).
Definition how_to_run (ns : option netns) : how :=
  if usesXSocket ns then Refuse
  else match ns with None => Direct | Some n => if String.eqb (ns_name n) "" then Direct else Switch (ns_name n) end.

(** Where a call on a thread is: before opening the current namespace, before opening the target, before switching, before the function,
    before switching back. o: the namespace saved, t: the target. *)
Inductive phase := Idle | Opening (t : nat) | Target (t o : nat) | Entering (t o : nat) | Inside (t o : nat) | Leaving (t o : nat) (r : bool).
(** Namespace and phase of each thread, descriptors open by each, the functions run (thread, namespace), results of calls *)
Inductive nresult := Done (r : bool) | Failed.
Record nstate := NState { s_ns : nat -> nat; s_phase : nat -> phase; s_fds : nat -> nat; s_log : list (nat * nat); s_res : list (nat * nresult) }.
Definition upd {A} (f : nat -> A) (t : nat) (x : A) : nat -> A := fun t' => if Nat.eqb t' t then x else f t'.
Definition ninit : nstate := NState (fun _ => 0) (fun _ => Idle) (fun _ => 0) [] [].
Inductive nact :=
| Start (th target : nat)   (* LockOSThread; target: the namespace at the path *)
| Step (th : nat) (ok : bool). (* the next system call, or the function, succeeds or fails *)
(** The step of a thread; None: nothing to do. netns_linux.go:55-79 *)
Definition nstep (s : nstate) (a : nact) : option nstate :=
  match a with
  | Start th t => match s_phase s th with Idle => Some (NState (s_ns s) (upd (s_phase s) th (Opening t)) (s_fds s) (s_log s) (s_res s)) | _ => None end
  | Step th ok =>
      let fail := NState (s_ns s) (upd (s_phase s) th Idle) (upd (s_fds s) th 0) (s_log s) ((th, Failed) :: s_res s) in
      match s_phase s th with
      | Idle => None
      | Opening t => (* os.Open("/proc/self/ns/net") *)
          if ok then Some (NState (s_ns s) (upd (s_phase s) th (Target t (s_ns s 0))) (upd (s_fds s) th (s_fds s th + 1)) (s_log s) (s_res s)) else Some fail
      | Target t o => (* os.Open(ns.nsPath()); on an error the deferred Close of the first *)
          if ok then Some (NState (s_ns s) (upd (s_phase s) th (Entering t o)) (upd (s_fds s) th (s_fds s th + 1)) (s_log s) (s_res s)) else Some fail
      | Entering t o => (* Setns; on an error both are closed *)
          if ok then Some (NState (upd (s_ns s) th t) (upd (s_phase s) th (Inside t o)) (s_fds s) (s_log s) (s_res s)) else Some fail
      | Inside t o => (* fn() *)
          Some (NState (s_ns s) (upd (s_phase s) th (Leaving t o ok)) (s_fds s) ((th, s_ns s th) :: s_log s) (s_res s))
      | Leaving t o r => (* the deferred Setns, of which an error is ignored, Close, Close, UnlockOSThread *)
          Some (NState (if ok then upd (s_ns s) th o else s_ns s) (upd (s_phase s) th Idle) (upd (s_fds s) th (s_fds s th - 2)) (s_log s) ((th, Done r) :: s_res s))
      end
  end.
Fixpoint nruns (s : nstate) (l : list nact) : option nstate :=
  match l with [] => Some s | a :: l' => match nstep s a with Some s' => nruns s' l' | None => None end end.
