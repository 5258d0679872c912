(** netns_watch_linux.go and the supervisor of listeners in cmd/routedns/main.go: a listener that runs while a network namespace is there. *)
From Verif Require Import Base Bytes.

(** ** Reading the events of the kernel *)
Section INOTIFY.
Local Open Scope N_scope.
(** A little-endian 32-bit number at an offset. struct inotify_event: wd, mask, cookie, len (32 bits each), then the name. *)
Definition get32le (off : nat) (l : list N) : N := nth off l 0 + 256 * (nth (off + 1) l 0 + 256 * (nth (off + 2) l 0 + 256 * nth (off + 3) l 0)).
Definition IN_MOVED_FROM : N := 64.
Definition IN_MOVED_TO : N := 128.
Definition IN_CREATE : N := 256.
Definition IN_DELETE : N := 512.
Fixpoint until_nul (l : list N) : list N := match l with [] => [] | b :: l' => if b =? 0 then [] else b :: until_nul l' end.
(** netns_watch_linux.go:108-136, the events in the n bytes read into the buffer; Present is [true]. None: the name is longer than the
    buffer, where Go panics. [fuel] is the number of bytes left: every event takes at least 16. *)
Fixpoint events (fuel : nat) (buf : list N) (n offset : nat) : option (list (list N * bool)) :=
  match fuel with
  | O => Some []
  | S fuel' =>
      if (offset + 16 <=? n)%nat then
        let mask := get32le (offset + 4) buf in
        let nameLen := N.to_nat (get32le (offset + 12) buf) in
        let start := (offset + 16)%nat in
        if (length buf <? start + nameLen)%nat then None
        else
          let name := until_nul (slice start (start + nameLen) buf) in
          match events fuel' buf n (start + nameLen) with
          | None => None
          | Some rest =>
              if negb (N.land mask (N.lor IN_CREATE IN_MOVED_TO) =? 0) then Some (match name with [] => rest | _ => (name, true) :: rest end)
              else if negb (N.land mask (N.lor IN_DELETE IN_MOVED_FROM) =? 0) then Some (match name with [] => rest | _ => (name, false) :: rest end)
              else Some rest
          end
      else Some []
  end.
End INOTIFY.

(** ** One namespace, its subscriber and its supervisor, as a machine of concurrent steps *)
Inductive subscriber := NotYet | Reading (b : bool) | Listening (last : option bool).
Inductive pc := Idle | Waiting | Stopping (attempt : nat).
Inductive event := Received (b : bool) | Launched (i : nat) | BuildFailed | StopCalled (i : nat) | Abandoned (i : nat) | Returned (i : nat).
Record st := St {
  fs : bool;                 (* is the namespace there *)
  queue : list bool;         (* events of the kernel that have not been read; its limit is not modelled *)
  sub : subscriber; ch : list bool;
  lost : bool;               (* not in the code: the latest event did not get to the subscriber *)
  at_ : pc; ln : option nat; present : bool; retry : bool;
  running : list nat;        (* instances whose Start has not returned *)
  results : list nat;        (* instances with the result of Start in their channel *)
  next : nat; log : list event }.
Definition start (b : bool) : st := St b [] NotYet [] false Idle None false false [] [] 0 [].

(** netns_watch_linux.go:231-241 notifyLocked. The channel has room for 16 (151). *)
Definition notify (last : option bool) (ch : list bool) (b : bool) : option bool * list bool * bool :=
  if match last with Some l => Bool.eqb l b | None => false end then (last, ch, false)
  else if (length ch <? 16)%nat then (Some b, ch ++ [b], false) else (last, ch, true).
Inductive action :=
  | Change       (* the namespace appears or disappears *)
  | Again        (* something is moved over an existing one *)
  | SubRead      (* netns_watch_linux.go:152, currentNetNSState *)
  | SubAdd       (* netns_watch_linux.go:154-160 *)
  | Dispatch     (* netns_watch_linux.go:135, dispatch for the next event *)
  | Take         (* main.go:1266-1298, a state from the channel *)
  | Ready (built : bool)   (* main.go:1283-1286, the wait is over (however it ended) and launch *)
  | TakeErr      (* main.go:1299-1309 *)
  | Tick (built : bool)    (* main.go:1310-1315 *)
  | Stopped      (* main.go:1338, the result of Start *)
  | Patience     (* main.go:1340-1344, 100 ms *)
  | Return (i : nat).      (* Start of an instance returns; the result goes into its channel (main.go:1260) *)
Definition mem (i : nat) (l : list nat) : bool := existsb (Nat.eqb i) l.
Definition drop (i : nat) (l : list nat) : list nat := filter (fun j => negb (Nat.eqb i j)) l.
(** main.go:1249-1262 launch *)
Definition launch (built : bool) (s : st) : st :=
  if built then St (fs s) (queue s) (sub s) (ch s) (lost s) Idle (Some (next s)) (present s) false (next s :: running s) (results s) (S (next s)) (Launched (next s) :: log s)
  else St (fs s) (queue s) (sub s) (ch s) (lost s) Idle (ln s) (present s) true (running s) (results s) (next s) (BuildFailed :: log s).
Definition maxAttempts : nat := 30.   (* main.go:1331 *)
Definition act (a : action) (s : st) : option st :=
  match s with St f q sb c lo p l pr re ru rs n lg =>
  match a with
  | Change => Some (St (negb f) (q ++ [negb f]) sb c lo p l pr re ru rs n lg)
  | Again => if f then Some (St f (q ++ [true]) sb c lo p l pr re ru rs n lg) else None
  | SubRead => match sb with NotYet => Some (St f q (Reading f) c false p l pr re ru rs n lg) | _ => None end
  | SubAdd => match sb with Reading b => let '(last, c', full) := notify None c b in Some (St f q (Listening last) c' (lo || full) p l pr re ru rs n lg) | _ => None end
  | Dispatch =>
      match q with
      | [] => None
      | b :: q' => match sb with
                   | NotYet => Some (St f q' sb c false p l pr re ru rs n lg)
                   | Reading _ => Some (St f q' sb c true p l pr re ru rs n lg)
                   | Listening last => let '(last', c', full) := notify last c b in Some (St f q' (Listening last') c' full p l pr re ru rs n lg)
                   end
      end
  | Take =>
      match p, c with
      | Idle, true :: c' => Some (St f q sb c' lo (match l with Some _ => Idle | None => Waiting end) l true re ru rs n (Received true :: lg))
      | Idle, false :: c' => match l with
                             | None => Some (St f q sb c' lo Idle None false false ru rs n (Received false :: lg))
                             | Some i => Some (St f q sb c' lo (Stopping 0) l false false ru rs n (StopCalled i :: Received false :: lg))
                             end
      | _, _ => None
      end
  | Ready built => match p with Waiting => Some (launch built s) | _ => None end
  | TakeErr => match p, l with Idle, Some i => if mem i rs then Some (St f q sb c lo Idle None pr (if pr then true else re) ru (drop i rs) n lg) else None | _, _ => None end
  | Tick built => match p with
                  | Idle => if re then if pr && match l with None => true | Some _ => false end then Some (launch built (St f q sb c lo p l pr false ru rs n lg)) else Some (St f q sb c lo Idle l pr false ru rs n lg) else None
                  | _ => None
                  end
  | Stopped => match p, l with Stopping _, Some i => if mem i rs then Some (St f q sb c lo Idle None pr re ru (drop i rs) n lg) else None | _, _ => None end
  | Patience => match p, l with
                | Stopping k, Some i => if (maxAttempts <=? k)%nat then Some (St f q sb c lo Idle None pr re ru rs n (Abandoned i :: lg))
                                        else Some (St f q sb c lo (Stopping (S k)) l pr re ru rs n (StopCalled i :: lg))
                | _, _ => None
                end
  | Return i => if mem i ru then Some (St f q sb c lo p l pr re (drop i ru) (i :: rs) n (Returned i :: lg)) else None
  end end.
Fixpoint acts (l : list action) (s : st) : option st := match l with [] => Some s | a :: l' => match act a s with None => None | Some s' => acts l' s' end end.
