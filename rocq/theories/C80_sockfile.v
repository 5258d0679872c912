(** C80: the socket file of the xsocket server. *)
From Verif Require Import Base SockFile_model SockFile_spec SockFile_proofs.
Local Open Scope nat_scope.

(** An abstract name has one server at a time, whatever the order in which servers start, stop and die: one that serves can be reached. *)
Theorem C80_abstract : forall modes dflt ls s i j, any_order true modes dflt ls s -> serves s i -> reaches s i dflt /\ (serves s j -> j = i).
Proof. exact abstract_one_owner. Qed.
Print Assumptions C80_abstract.
(** So has a path, if starts do not overlap and other programs leave the file of a running server alone; the file has the mode asked for. *)
Theorem C80_owner : forall modes dflt ls s i j, orderly false modes dflt ls s -> serves s i -> reaches s i (wanted modes dflt i) /\ (serves s j -> j = i).
Proof. exact file_one_owner. Qed.
Print Assumptions C80_owner.
(** If all servers are at their end, the next one takes the place of what they left behind. *)
Theorem C80_replaces : forall modes dflt s i, i = length (pcs s) -> nobody s -> (forall c d, entry s = Some (Foreign c d) -> c = Refused) ->
  exists ls s', alone i ls /\ run false modes dflt (New :: ls) s = Some s' /\ serves s' i /\ reaches s' i (wanted modes dflt i).
Proof. exact stale_replaced. Qed.
Print Assumptions C80_replaces.
(** A server that finds one which can be reached ends with an error and changes nothing. *)
Theorem C80_refuses : forall modes dflt s i, i = length (pcs s) -> (exists j m, reaches s j m) \/ (exists d, entry s = Some (Foreign Accepted d)) ->
  exists s', run false modes dflt [New; Go i true; Go i true] s = Some s' /\ ended s' i InUse /\ entry s' = entry s /\
    forall j, j <> i -> nth_error (pcs s') j = nth_error (pcs s) j.
Proof. exact live_left. Qed.
Print Assumptions C80_refuses.
(** Whatever takes connections, or fails to in another way than by refusing them, is left alone, however many servers start beside each other. *)
Theorem C80_leaves : forall modes dflt c d ls s s', c <> Refused -> entry s = Some (Foreign c d) ->
  (forall i p, nth_error (pcs s) i = Some p -> exists r, p = Ended r) -> (forall e, ~ In (Env e) ls) ->
  run false modes dflt ls s = Some s' -> entry s' = entry s /\ forall i, ~ serves s' i.
Proof. exact others_left. Qed.
Print Assumptions C80_leaves.
(** Stop removes the file. *)
Theorem C80_stop : forall modes dflt ls s i, orderly false modes dflt ls s -> serves s i ->
  exists s', run false modes dflt [Stop i; Go i true; Go i true] s = Some s' /\ ended s' i Stopped /\ entry s' = None /\
    forall j, j <> i -> nth_error (pcs s') j = nth_error (pcs s) j.
Proof. exact stop_cleans. Qed.
Print Assumptions C80_stop.
(** A server comes to an end of its start, and of its stop, whatever others do: it makes at most eight steps, and none of them waits. *)
Theorem C80_ends : forall abstract modes dflt ls s s' i, length (pcs s) <= i -> run abstract modes dflt ls s = Some s' -> steps_of i ls <= 8 /\
  ((exists p, nth_error (pcs s') i = Some p) -> serves s' i \/ (exists r, ended s' i r) \/ forall ok, exists s2, step abstract modes dflt (Go i ok) s' = Some s2).
Proof. exact server_ends. Qed.
Print Assumptions C80_ends.
(** With a stale file, two servers that start beside each other may both serve, and only one of them can be reached. *)
Theorem C80_race_refuted : exists ls s, any_order false (fun _ => 0%N) 493 ls s /\ serves s 0 /\ serves s 1 /\ reaches s 0 493 /\ ~ exists m, reaches s 1 m.
Proof. exact race_both_serve. Qed.
Print Assumptions C80_race_refuted.
(** Without one too: between bind and listen a socket refuses connections, as a stale one does. *)
Theorem C80_window_refuted : exists ls s, any_order false (fun _ => 0%N) 493 ls s /\ entry (init None) = None /\
  (exists s1, run false (fun _ => 0%N) 493 ls (init None) = Some s1 /\ s1 = s) /\ serves s 0 /\ serves s 1 /\ ~ exists m, reaches s 0 m.
Proof. exact window_both_serve. Qed.
Print Assumptions C80_window_refuted.
(** Stop removes the file of another server. *)
Theorem C80_unlink_refuted : exists ls s, run false (fun _ => 0%N) 493 ls (init None) = Some s /\ (forall c, In (Env c) ls -> c = None) /\
  ended s 0 Stopped /\ serves s 1 /\ entry s = None.
Proof. exact removed_unreachable. Qed.
Print Assumptions C80_unlink_refuted.
(** An empty directory is taken for a stale socket; so is any other file. *)
Theorem C80_file_refuted : exists ls s, orderly false (fun _ => 0%N) 493 ls s /\
  run false (fun _ => 0%N) 493 ls (init (Some (Foreign Refused true))) = Some s /\ serves s 0.
Proof. exact directory_removed. Qed.
Print Assumptions C80_file_refuted.
(** Clients may connect before the mode is set: 0755 for 0600. *)
Theorem C80_mode_refuted : exists ls s, orderly false (fun _ => 384%N) 493 ls s /\ wanted (fun _ => 384%N) 493 0 = 384%N /\ reaches s 0 493.
Proof. exact open_before_chmod. Qed.
Print Assumptions C80_mode_refuted.

(** A server starts with mode 0600, dies; the next one removes the file and serves; a third one finds it in use. *)
Definition life : list label :=
  [New; Go 0 true; Go 0 true; Go 0 true; Die 0; New; Go 1 true; Go 1 true; Go 1 true; Go 1 true; Go 1 true; Go 1 true; New; Go 2 true; Go 2 true].
Example life_ends : run false (fun _ => 384%N) 493 life (init None) = Some (St (Some (Sock 1 384)) 2 [Ended Died; Serving 1; Ended InUse]).
Proof. vm_compute. reflexivity. Qed.
Example life_served : forall s, run false (fun _ => 384%N) 493 life (init None) = Some s -> serves s 1 /\ reaches s 1 384.
Proof. intros s E. rewrite life_ends in E. assert (s = St (Some (Sock 1 384)) 2 [Ended Died; Serving 1; Ended InUse]) as -> by congruence. split; [now exists 1|]. exists 1, (Serving 1). auto. Qed.
(** An orderly history with a server that serves *)
Example orderly_serves : exists ls s, orderly false (fun _ => 384%N) 493 ls s /\ serves s 0.
Proof.
  exists [New; Go 0 true; Go 0 true; Go 0 true], (St (Some (Sock 0 384)) 1 [Serving 0]). split; [|now exists 0].
  apply (orderly_run_one _ _ None); [exact I|no_envs|one_new|vm_compute; reflexivity].
Qed.
(** Two servers race for an abstract name: one of them serves *)
Example abstract_race : run true (fun _ => 0%N) 493 [New; New; Go 1 true; Go 0 true; Go 1 true] (init None) = Some (St (Some (Sock 0 493)) 1 [Ended Failed; Serving 0]).
Proof. vm_compute. reflexivity. Qed.
Example abstract_order : any_order true (fun _ => 0%N) 493 [New; New; Go 1 true; Go 0 true; Go 1 true] (St (Some (Sock 0 493)) 1 [Ended Failed; Serving 0]).
Proof. apply (any_order_run _ _ _ None); [exact I|no_envs|vm_compute; reflexivity]. Qed.
(** The socket of another program with a full queue is left alone *)
Example busy_left : run false (fun _ => 0%N) 493 [New; Go 0 true; Go 0 true] (init (Some (Foreign Error false))) = Some (St (Some (Foreign Error false)) 0 [Ended Failed]).
Proof. vm_compute. reflexivity. Qed.
