(** C51: a listener that runs while a network namespace is there. [acts l (start b) = Some s]: s is reached from the start, with a namespace
    that is there (b) or not, by the steps l in any order of the goroutines. *)
From Verif Require Import Base Bytes Netns_model Netns_spec Netns_proofs.

(** At most one instance runs at a time, unless an earlier one did not stop: then that one has been asked to stop 31 times. *)
Theorem C51_one : forall b l s, acts l (start b) = Some s -> (forall i, ~ In (Abandoned i) (log s)) -> (length (running s) <= 1)%nat.
Proof. exact one_instance. Qed.
Print Assumptions C51_one.
Theorem C51_others : forall b l s, acts l (start b) = Some s -> NoDup (running s) /\ forall i, In i (running s) -> ln s = Some i \/ In (Abandoned i) (log s).
Proof. exact instances. Qed.
Print Assumptions C51_others.
Theorem C51_abandoned : forall b l s, acts l (start b) = Some s -> forall i x y, log s = x ++ Abandoned i :: y -> stops i y = 31%nat.
Proof. exact abandoned_stops. Qed.
Print Assumptions C51_abandoned.
(** It is launched only when the latest state that was delivered is Present, *)
Theorem C51_launched : forall b l s, acts l (start b) = Some s -> forall i x y, log s = x ++ Launched i :: y -> told y = true.
Proof. exact launched_when. Qed.
Print Assumptions C51_launched.
(** and all are stopped, and none is about to be launched, once Absent has been dealt with. *)
Theorem C51_stopped : forall b l s, acts l (start b) = Some s -> at_ s = Idle -> told (log s) = false ->
  ln s = None /\ retry s = false /\ forall i, In (Launched i) (log s) -> In (Returned i) (log s) \/ In (Abandoned i) (log s).
Proof. exact all_stopped. Qed.
Print Assumptions C51_stopped.
(** After Present there is always an instance, or its result to be taken, or a timer that launches one. *)
Theorem C51_kept : forall b l s, acts l (start b) = Some s -> at_ s = Idle -> told (log s) = true ->
  (exists i, ln s = Some i /\ (In i (running s) \/ In i (results s))) \/ retry s = true.
Proof. exact kept_running. Qed.
Print Assumptions C51_kept.
Theorem C51_retry : forall b l s, acts l (start b) = Some s -> at_ s = Idle -> retry s = true -> forall built, exists s', act (Tick built) s = Some s' /\
  (if built then exists i, log s' = Launched i :: log s /\ ln s' = Some i /\ In i (running s') else log s' = BuildFailed :: log s /\ retry s' = true).
Proof. exact tick. Qed.
Print Assumptions C51_retry.
(** The states delivered alternate. *)
Theorem C51_alternate : forall b l s, acts l (start b) = Some s -> alternating (states (log s)).
Proof. exact alternates. Qed.
Print Assumptions C51_alternate.
(** When nothing is left to do, the listener runs if and only if the namespace is there, provided that the latest event got to the subscriber. *)
Theorem C51_settled : forall b l s, acts l (start b) = Some s -> settled s -> lost s = false ->
  (fs s = true -> exists i, ln s = Some i /\ In i (running s)) /\ (fs s = false -> forall i, In i (running s) -> In (Abandoned i) (log s)).
Proof. exact settled_state. Qed.
Print Assumptions C51_settled.
(** And that is where it gets to after the last event from outside: there are steps until it is settled, and no more than a number that
    depends on the state. *)
Theorem C51_steps : forall b l s, acts l (start b) = Some s -> settled s \/ exists a s', internal a = true /\ act a s = Some s'.
Proof. exact until_settled. Qed.
Print Assumptions C51_steps.
Theorem C51_settles : forall b l s l' s', acts l (start b) = Some s -> forallb internal l' = true -> acts l' s = Some s' -> (length l' <= weight s)%nat.
Proof. exact must_settle. Qed.
Print Assumptions C51_settles.
(** What the kernel reports is understood: the namespaces that were created, deleted, moved here or away, in their order. *)
Theorem C51_events : forall es rest, Forall kevent_ok es ->
  events (S (length (flat_map kbytes es))) (flat_map kbytes es ++ rest) (length (flat_map kbytes es)) 0 = Some (flat_map meaning es).
Proof. exact read_events. Qed.
Print Assumptions C51_events.
(** The full claim does not hold. A change while the supervisor subscribes is lost: *)
Theorem C51_race_refuted : exists b l s, acts l (start b) = Some s /\ settled s /\ fs s = true /\ running s = [].
Proof. exact race_missed. Qed.
Print Assumptions C51_race_refuted.
(** the last of a series of changes is lost if the channel is full: *)
Theorem C51_full_refuted : exists b l s, acts l (start b) = Some s /\ settled s /\ fs s = false /\ (forall i, ~ In (Abandoned i) (log s)) /\ exists i, running s = [i].
Proof. exact full_missed. Qed.
Print Assumptions C51_full_refuted.
(** a listener that does not stop in time goes on beside the next. *)
Theorem C51_two_refuted : exists b l s, acts l (start b) = Some s /\ settled s /\ lost s = false /\ running s = [1; 0]%nat.
Proof. exact two_running. Qed.
Print Assumptions C51_two_refuted.

(** The namespace appears, the listener fails once, then it is deleted. *)
Definition demo : list action := [SubRead; SubAdd; Take; Change; Dispatch; Take; Ready false; Tick true; Return 0; TakeErr; Tick true].
Example C51_demo : match acts demo (start false) with Some s => settled s /\ lost s = false /\ fs s = true /\ running s = [1%nat] /\
  log s = [Launched 1; Returned 0; Launched 0; BuildFailed; Received true; Received false] | None => False end.
Proof. cbn. repeat split; eauto. eexists; reflexivity. Qed.
Example C51_demo_end : match acts (demo ++ [Change; Dispatch; Take; Patience; Return 1; Stopped]) (start false) with Some s => settled s /\ lost s = false /\ fs s = false /\ running s = [] /\
  log s = [Returned 1; StopCalled 1; StopCalled 1; Received false; Launched 1; Returned 0; Launched 0; BuildFailed; Received true; Received false] | None => False end.
Proof. cbn. repeat split; eauto; try discriminate; eexists; reflexivity. Qed.
Local Open Scope N_scope.
Definition demo_event : kevent := KEvent [1; 0; 0; 0] 256 [0; 0; 0; 0] [118; 112; 110] 13.
Example C51_demo_event : kevent_ok demo_event /\ length (kbytes demo_event) = 32%nat /\ events 65 (kbytes demo_event ++ kbytes (KEvent [1; 0; 0; 0] 512 [0; 0; 0; 0] [118] 15)) 64 0 = Some [([118; 112; 110], true); ([118], false)].
Proof. repeat split; try reflexivity. cbn. intuition discriminate. Qed.
