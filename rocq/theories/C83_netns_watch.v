(** C83: the watcher of namespaces with several subscribers, and waiting for a namespace to be mounted. *)
From Verif Require Import Base Watch_model Watch_spec Watch_proofs.
Local Open Scope string_scope. Local Open Scope list_scope.

(** A subscriber begins with one state, the one that subscribing found, whatever happens between that look and the subscriber joining the list; and the others notice nothing. *)
Theorem C83_first : forall limit s n ls t, reachable limit s -> run limit (Stat n :: ls) s = Some t -> ~ In (Join (next s)) ls ->
  exists t' x, step limit (Join (next s)) t = Some t' /\ subs t' = subs t ++ [x] /\ former t' = former t /\ queue t' = queue t /\ there t' = there t /\
    s_id x = next s /\ s_name x = n /\ s_sent x = [there s n] /\ s_ch x = [there s n] /\ s_in x = [there s n] /\ s_full x = false /\ (~ In (Change n) ls -> s_raced x = false).
Proof. exact joined. Qed.
Print Assumptions C83_first.
(** An event goes to all subscribers for its name and to no others. Each is sent the state unless it is the one sent last, or 16 states wait to be received. *)
Theorem C83_dispatch : forall limit s n b q, reachable limit s -> queue s = Some (n, b) :: q -> exists s', step limit Next s = Some s' /\ queue s' = q /\ former s' = former s /\
  Forall2 (fun x y => if String.eqb (s_name x) n then told b x y /\ s_in y = s_in x ++ [b] /\ s_raced y = false else y = x) (subs s) (subs s').
Proof. exact dispatched. Qed.
Print Assumptions C83_dispatch.
(** Nothing else sends: a change by itself or a look does not touch a subscriber, and receiving takes the oldest state from one channel. *)
Theorem C83_only_events : forall limit s a s', step limit a s = Some s' -> match a with
  | Next | Join _ | Cancel _ => True
  | Recv i => Forall2 (fun x y => s_sent y = s_sent x /\ s_in y = s_in x /\ s_id y = s_id x /\ s_name y = s_name x /\ s_full y = s_full x /\ s_raced y = s_raced x /\ s_ch y = if (s_id x =? i)%nat then tl (s_ch x) else s_ch x) (subs s ++ former s) (subs s' ++ former s')
  | _ => subs s' = subs s /\ former s' = former s end.
Proof. exact only_events. Qed.
Print Assumptions C83_only_events.
(** The states sent alternate; they are received in the order they were sent; they are a part of what was to be sent; and at most 16 wait. *)
Theorem C83_order : forall limit s x, reachable limit s -> In x (subs s) \/ In x (former s) -> alternates (s_sent x) /\ (exists r, s_sent x = r ++ s_ch x) /\ part_of (s_sent x) (s_in x) /\ (length (s_ch x) <= 16)%nat.
Proof. exact sent_order. Qed.
Print Assumptions C83_order.
(** When no event for the name waits to be read, the state sent last is the true one: if the kernel lost no event, the name is that of an entry of the
    directory, the namespace did not change while the subscriber joined, and the latest state did not meet a full channel. *)
Theorem C83_true : forall limit s x, reachable limit s -> over s = false -> In x (subs s) -> entry (s_name x) = true -> s_raced x = false -> s_full x = false -> events_for (s_name x) (queue s) = [] ->
  latest (s_sent x) (there s (s_name x)).
Proof. exact informed. Qed.
Print Assumptions C83_true.
(** Cancelling takes one subscriber from the list; the others stay as they are, in their order. No two have the same number. *)
Theorem C83_cancel : forall limit s i s', reachable limit s -> step limit (Cancel i) s = Some s' ->
  subs s' = filter (fun x => negb (s_id x =? i)%nat) (subs s) /\ queue s' = queue s /\ there s' = there s /\ joins s' = joins s.
Proof. exact cancelled. Qed.
Print Assumptions C83_cancel.
Theorem C83_numbers : forall limit s, reachable limit s -> NoDup (ids s).
Proof. exact numbers. Qed.
Print Assumptions C83_numbers.
(** And nothing is sent to it ever after. *)
Theorem C83_silent : forall limit s i x s' ls s'', reachable limit s -> In x (subs s) -> s_id x = i -> step limit (Cancel i) s = Some s' -> run limit ls s' = Some s'' ->
  (forall y, In y (subs s'') -> s_id y <> i) /\ exists y, In y (former s'') /\ s_id y = i /\ s_sent y = s_sent x.
Proof. exact silent. Qed.
Print Assumptions C83_silent.

(** Waiting: it ends at the first look that finds the namespace mounted or its file gone, or after a look that leaves no time. *)
Theorem C83_wait : forall statfs d rounds w, wait statfs d rounds = Some w <->
  exists x c r y, rounds = x ++ (c, r) :: y /\ (forall c' r', In (c', r') x -> statfs c' = Other /\ (r' < d)%Z) /\
    match w with Ready => statfs c = Nsfs | NotThere => statfs c = Missing | TimedOut => statfs c = Other /\ (d <= r)%Z end.
Proof. exact wait_decides. Qed.
Print Assumptions C83_wait.
(** It always ends, after at most one look in 10 ms and two more, *)
Theorem C83_wait_ends : forall statfs slack d rounds t, timed slack d t rounds -> (t <= d)%Z -> ((d - t) / (10 * 10 ^ 6) + 2 <= Z.of_nat (length rounds))%Z -> wait statfs d rounds <> None.
Proof. exact wait_ends. Qed.
Print Assumptions C83_wait_ends.
(** none of which comes later than the deadline, but for what the machine itself is late. *)
Theorem C83_wait_timely : forall statfs slack d x t c r y, timed slack d t (x ++ (c, r) :: y) -> (t <= d)%Z -> wait statfs d x = None -> (t <= c <= d + slack)%Z /\ (r <= d + 2 * slack)%Z.
Proof. exact wait_timely. Qed.
Print Assumptions C83_wait_timely.
(** A namespace mounted for 10 ms (and what the machine is late) before the deadline is noticed, if its file was there all the time till then. *)
Theorem C83_wait_notices : forall statfs slack d a b rounds t w, timed slack d t rounds -> (t <= a)%Z -> (a + 10 * 10 ^ 6 + 2 * slack <= b)%Z -> (b <= d)%Z -> (forall u, (a <= u <= b)%Z -> statfs u = Nsfs) ->
  (forall u, (t <= u < a)%Z -> statfs u <> Missing) -> wait statfs d rounds = Some w -> w = Ready.
Proof. exact wait_notices. Qed.
Print Assumptions C83_wait_notices.

(** ** The exceptions are real: all is read, and what was sent last is wrong *)
Definition stale (limit : nat) (s : st) (x : sub) : Prop := reachable limit s /\ In x (subs s) /\ queue s = [] /\ latest (s_sent x) (negb (there s (s_name x))).
Definition none (n : string) := false.
(** The namespace appears after the look and its event is read before the subscriber joins *)
Theorem C83_raced_refuted : exists limit s x, stale limit s x /\ over s = false /\ entry (s_name x) = true /\ s_full x = false.
Proof.
  pose (s := run 5 [Stat "a"; Change "a"; Next; Join 0%nat] (init none)). destruct s as [t|] eqn:E; [|discriminate]. exists 5%nat, t. vm_compute in E. injection E as <-.
  eexists. split; [split; [exists none, ([Stat "a"; Change "a"; Next; Join 0%nat]); reflexivity|split; [left; reflexivity|split; [reflexivity|exists []; reflexivity]]]|repeat split].
Qed.
Print Assumptions C83_raced_refuted.
(** A name with a slash, as in a path, gets no event *)
Theorem C83_slash_refuted : exists limit s x, stale limit s x /\ over s = false /\ s_raced x = false /\ s_full x = false.
Proof.
  pose (s := run 5 [Stat "a/b"; Join 0%nat; Change "a/b"] (init none)). destruct s as [t|] eqn:E; [|discriminate]. exists 5%nat, t. vm_compute in E. injection E as <-.
  eexists. split; [split; [exists none, ([Stat "a/b"; Join 0%nat; Change "a/b"]); reflexivity|split; [left; reflexivity|split; [reflexivity|exists []; reflexivity]]]|repeat split].
Qed.
Print Assumptions C83_slash_refuted.
(** More events than the kernel keeps, even for other names *)
Theorem C83_lost_refuted : exists limit s x, stale limit s x /\ entry (s_name x) = true /\ s_raced x = false /\ s_full x = false.
Proof.
  pose (ls := [Stat "a"; Join 0%nat; Change "b"; Change "a"; Next; Next]). pose (s := run 1 ls (init none)). destruct s as [t|] eqn:E; [|discriminate]. exists 1%nat, t. vm_compute in E. injection E as <-.
  eexists. split; [split; [exists none, (ls); reflexivity|split; [left; reflexivity|split; [reflexivity|exists []; reflexivity]]]|repeat split].
Qed.
Print Assumptions C83_lost_refuted.
(** Or a subscriber that does not receive: it finds 16 states, the last of which is out of date *)
Theorem C83_full_refuted : exists limit s x, stale limit s x /\ over s = false /\ entry (s_name x) = true /\ s_raced x = false.
Proof.
  pose (ls := [Stat "a"; Join 0%nat] ++ List.concat (repeat [Change "a"; Next] 16)). pose (l := List.concat (repeat [false; true] 8)).
  assert (option_map (fun s => (subs s, queue s, over s, there s "a")) (run 5 ls (init none)) =
    Some ([Sub 0 "a" l (Some true) l (l ++ [false]) true false], [], false, false)) as H by (vm_compute; reflexivity).
  destruct (run 5 ls (init none)) as [s|] eqn:E; [|discriminate]. injection H as HS HQ HO HT. eexists 5%nat, s, _. split; [split; [now exists none, ls|split; [rewrite HS; left; reflexivity|split; [exact HQ|]]]|].
  - cbn [s_name s_sent]. rewrite HT. exists (removelast l). reflexivity.
  - repeat split. exact HO.
Qed.
Print Assumptions C83_full_refuted.

(** ** Cases *)
Definition busy := [Stat "a"; Join 0%nat; Stat "b"; Join 1%nat; Stat "a"; Change "b"; Join 2%nat; Change "a"; Next; Next; Cancel 0%nat; Change "a"; Next; Recv 2%nat].
Example busy_run : option_map (fun s => (map (fun x => (s_id x, s_sent x, s_ch x)) (subs s), map (fun x => (s_id x, s_sent x)) (former s), (over s, queue s))) (run 3 busy (init none)) =
  Some ([(1%nat, [false; true], [false; true]); (2%nat, [false; true; false], [true; false])], [(0%nat, [false; true])], (false, [])).
Proof. vm_compute. reflexivity. Qed.
Example busy_true : option_map (fun s => map (fun x => (entry (s_name x), s_raced x, s_full x, events_for (s_name x) (queue s), there s (s_name x))) (subs s)) (run 3 busy (init none)) =
  Some [(true, false, false, [], true); (true, false, false, [], false)].
Proof. vm_compute. reflexivity. Qed.
Example before_dispatch : option_map queue (run 3 (firstn 8 busy) (init none)) = Some [Some ("b", true); Some ("a", true)].
Proof. vm_compute. reflexivity. Qed.
Local Open Scope Z_scope.
(** Mounted 25 ms after the start of a wait of 100 ms *)
Definition mounts (t : Z) := if t <? 25000000 then Other else Nsfs.
Definition rounds := [(0, 1000); (10002000, 10003000); (20004000, 20005000); (30006000, 30007000)].
Example mounts_timed : timed 2000 100000000 0 rounds.
Proof. cbn. repeat split; vm_compute; congruence. Qed.
Example mounts_ready : WaitNetNSReady mounts 0 100000000 rounds = Some Ready.
Proof. vm_compute. reflexivity. Qed.
Example mounts_window : 25000000 + 10 * 10 ^ 6 + 2 * 2000 <= 50000000 /\ forall u, 25000000 <= u <= 50000000 -> mounts u = Nsfs.
Proof. split; [vm_compute; congruence|]. intros u U. unfold mounts. destruct (Z.ltb_spec u 25000000); [exfalso; apply (Z.lt_irrefl u); eapply Z.lt_le_trans; [eassumption|apply U]|reflexivity]. Qed.
Example too_short : WaitNetNSReady mounts 0 15000000 [(0, 0); (10000000, 10000000); (15000000, 15000000)] = Some TimedOut.
Proof. vm_compute. reflexivity. Qed.
