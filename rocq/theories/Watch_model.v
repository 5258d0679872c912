(** The watcher of network namespaces with any number of subscribers (netns_watch_linux.go), and WaitNetNSReady. One subscriber together
    with its supervisor, and how the bytes of the kernel become events, are the subject of C51.
    The kernel: a change of an entry of the directory gives an event with the entry's name; at most [limit] events wait to be read, further
    ones are lost, and a record without a name says so, which the watcher ignores (lines 124-134). A read that fails, where the watcher
    ends (104-105), is not modelled. *)
From Verif Require Import Base.

(** netns_watch_linux.go:42-47, a subscriber with its number in place of its address. Not in the code: all states sent to it, oldest first;
    all states that were to be sent; did the latest of these meet a full channel; did the namespace change between lines 152 and 155
    (and no event come since) *)
Record sub := Sub { s_id : nat; s_name : string; s_ch : list bool; s_last : option bool; s_sent : list bool; s_in : list bool; s_full : bool; s_raced : bool }.
(** The state that line 152 read; did it change since *)
Record joining := Joining { j_id : nat; j_name : string; j_state : bool; j_changed : bool }.
Record st := St {
  there : string -> bool;                 (* is there something at the path of a name *)
  queue : list (option (string * bool));  (* events to be read; None: the record of lost events *)
  over : bool;                            (* not in the code: was an event lost *)
  joins : list joining; subs : list sub; former : list sub; next : nat }.
Definition init (f : string -> bool) : st := St f [] false [] [] [] 0.
(** An entry of the directory itself: paths with a slash are below it, or outside *)
Fixpoint entry (n : string) : bool := match n with EmptyString => true | String c n' => negb (Ascii.eqb c "/"%char) && entry n' end.
(** lines 231-241 notifyLocked; the channel of line 151 has room for 16 *)
Definition notifyLocked (s : sub) (b : bool) : sub :=
  let skip := Sub (s_id s) (s_name s) (s_ch s) (s_last s) (s_sent s) (s_in s ++ [b]) in
  if match s_last s with Some l => Bool.eqb l b | None => false end then skip false (s_raced s)
  else if (length (s_ch s) <? 16)%nat then Sub (s_id s) (s_name s) (s_ch s ++ [b]) (Some b) (s_sent s ++ [b]) (s_in s ++ [b]) false (s_raced s)
  else skip true (s_raced s).
Definition heard (s : sub) : sub := Sub (s_id s) (s_name s) (s_ch s) (s_last s) (s_sent s) (s_in s) (s_full s) false.
(** lines 140-148 dispatch *)
Definition dispatch (n : string) (b : bool) (l : list sub) : list sub := map (fun s => if String.eqb (s_name s) n then heard (notifyLocked s b) else s) l.
(** lines 165-169: the first with this address goes; what was before and after stays in order *)
Fixpoint cut_out (i : nat) (l : list sub) : list sub := match l with [] => [] | s :: l' => if (s_id s =? i)%nat then l' else s :: cut_out i l' end.
Definition find_sub (i : nat) (l : list sub) : option sub := find (fun s => (s_id s =? i)%nat) l.
(** A receive from the channel *)
Definition take (i : nat) (l : list sub) : list sub :=
  map (fun s => if (s_id s =? i)%nat then Sub (s_id s) (s_name s) (tl (s_ch s)) (s_last s) (s_sent s) (s_in s) (s_full s) (s_raced s) else s) l.
Section KERNEL.
Variable limit : nat.
(** Change: what is at the path of n appears or goes. Stat and Join: subscribe, lines 151-152 and 154-160. Next: the next record is read
    and dispatched. Recv: a subscriber receives. Cancel: lines 162-171 *)
Inductive label := Change (n : string) | Stat (n : string) | Join (i : nat) | Next | Recv (i : nat) | Cancel (i : nat).
Definition push (n : string) (b : bool) (q : list (option (string * bool))) : list (option (string * bool)) * bool :=
  if (length q <? limit)%nat then (q ++ [Some (n, b)], false)
  else (match last q (Some (""%string, true)) with None => q | Some _ => q ++ [None] end, true).
Definition step (a : label) (s : st) : option st :=
  match a with
  | Change n =>
      let b := negb (there s n) in
      let '(q, lost) := if entry n then push n b (queue s) else (queue s, false) in
      Some (St (fun m => if String.eqb n m then b else there s m) q (over s || lost)
               (map (fun j => if String.eqb (j_name j) n then Joining (j_id j) (j_name j) (j_state j) true else j) (joins s)) (subs s) (former s) (next s))
  | Stat n => Some (St (there s) (queue s) (over s) (joins s ++ [Joining (next s) n (there s n) false]) (subs s) (former s) (S (next s)))
  | Join i =>
      match find (fun j => (j_id j =? i)%nat) (joins s) with
      | None => None
      | Some j => Some (St (there s) (queue s) (over s) (filter (fun j => negb (j_id j =? i)%nat) (joins s))
                           (subs s ++ [notifyLocked (Sub i (j_name j) [] None [] [] false (j_changed j)) (j_state j)]) (former s) (next s))
      end
  | Next =>
      match queue s with
      | [] => None
      | None :: q => Some (St (there s) q (over s) (joins s) (subs s) (former s) (next s))
      | Some (n, b) :: q => Some (St (there s) q (over s) (joins s) (dispatch n b (subs s)) (former s) (next s))
      end
  | Recv i => Some (St (there s) (queue s) (over s) (joins s) (take i (subs s)) (take i (former s)) (next s))
  | Cancel i =>
      match find_sub i (subs s) with
      | None => Some s
      | Some x => Some (St (there s) (queue s) (over s) (joins s) (cut_out i (subs s)) (x :: former s) (next s))
      end
  end.
Fixpoint run (ls : list label) (s : st) : option st :=
  match ls with [] => Some s | a :: ls' => match step a s with Some s' => run ls' s' | None => None end end.
End KERNEL.

(** ** WaitNetNSReady *)
(** What statfs gives: the file system of namespaces, ENOENT, or anything else *)
Inductive fstat := Nsfs | Missing | Other.
Inductive waited := Ready | NotThere | TimedOut.
Section WAIT.
Local Open Scope Z_scope.
Variable statfs : Z -> fstat.    (* at each time, in nanoseconds *)
Definition recheck : Z := 10 * 10 ^ 6.   (* netns_watch_linux.go:184 *)
(** netns_watch_linux.go:199-221; the rounds are given by the times of lines 205 and 213. None: it still waits after these rounds *)
Fixpoint wait (deadline : Z) (rounds : list (Z * Z)) : option waited :=
  match rounds with
  | [] => None
  | (c, r) :: rounds' =>
      match statfs c with
      | Nsfs => Some Ready
      | Missing => Some NotThere
      | Other => if deadline - r <=? 0 then Some TimedOut else wait deadline rounds'
      end
  end.
(** The times of a run: sleeping takes as long as asked for (line 219), and no step takes more than [slack] longer than it must *)
Fixpoint timed (slack deadline t : Z) (rounds : list (Z * Z)) : Prop :=
  match rounds with
  | [] => True
  | (c, r) :: rounds' => t <= c <= t + slack /\ c <= r <= c + slack /\ timed slack deadline (r + Z.min (deadline - r) recheck) rounds'
  end.
Definition WaitNetNSReady (now timeout : Z) (rounds : list (Z * Z)) : option waited := wait (now + timeout) rounds.
End WAIT.
