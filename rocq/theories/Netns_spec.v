(** What the supervisor of a listener is for *)
From Verif Require Import Base Bytes Netns_model.

(** The latest state the supervisor has taken from its channel; before the first there is none. *)
Fixpoint told (l : list event) : bool := match l with [] => false | Received b :: _ => b | _ :: l' => told l' end.
(** Number of Stop calls for an instance *)
Fixpoint stops (i : nat) (l : list event) : nat := match l with [] => 0 | StopCalled j :: l' => (if Nat.eqb i j then 1 else 0) + stops i l' | _ :: l' => stops i l' end.
Fixpoint states (l : list event) : list bool := match l with [] => [] | Received b :: l' => b :: states l' | _ :: l' => states l' end.
Fixpoint alternating (l : list bool) : Prop := match l with a :: ((b :: _) as l') => a <> b /\ alternating l' | _ => True end.
(** Nothing is left to do: all events have been read, the supervisor waits, with no timer running and no result in the channel it reads. *)
Definition settled (s : st) : Prop :=
  queue s = [] /\ (exists last, sub s = Listening last) /\ ch s = [] /\ at_ s = Idle /\ retry s = false /\ (forall i, ln s = Some i -> ~ In i (results s)).
(** Steps of the program itself, with listeners that can be built; the rest comes from outside: changes of the namespace, listeners that
    return and listeners that cannot be built. *)
Definition internal (a : action) : bool := match a with Change | Again | Return _ | Ready false | Tick false => false | _ => true end.

(** An event of inotify as the kernel writes it: a name without NUL, padded with NULs *)
Record kevent := KEvent { k_wd : list N; k_mask : N; k_cookie : list N; k_name : list N; k_pad : nat }.
Local Open Scope N_scope.
Definition put32le (n : N) : list N := [n mod 256; n / 256 mod 256; n / 65536 mod 256; n / 16777216 mod 256].
Definition kevent_ok (e : kevent) : Prop := length (k_wd e) = 4%nat /\ length (k_cookie e) = 4%nat /\ k_mask e < 2 ^ 32 /\ N.of_nat (length (k_name e) + k_pad e) < 2 ^ 32 /\ ~ In 0 (k_name e).
Definition kbytes (e : kevent) : list N := k_wd e ++ put32le (k_mask e) ++ k_cookie e ++ put32le (N.of_nat (length (k_name e) + k_pad e)) ++ k_name e ++ repeat 0 (k_pad e).
(** The namespaces concerned: created or moved here, deleted or moved away *)
Definition meaning (e : kevent) : list (list N * bool) :=
  if match k_name e with [] => true | _ => false end then []
  else if N.testbit (k_mask e) 8 || N.testbit (k_mask e) 7 then [(k_name e, true)]
  else if N.testbit (k_mask e) 9 || N.testbit (k_mask e) 6 then [(k_name e, false)] else [].
