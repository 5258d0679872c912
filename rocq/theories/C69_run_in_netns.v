(** C69: running a function in another network namespace. *)
From Verif Require Import Base RunNs_model RunNs_spec RunNs_proofs.
Local Open Scope nat_scope.

(** Refused with an xsocket, called at once without a namespace, else in the namespace named. *)
Theorem C69_how ns :
  (how_to_run ns = Refuse <-> exists n, ns = Some n /\ ns_xsocket n <> ""%string) /\
  (how_to_run ns = Direct <-> ns = None \/ exists n, ns = Some n /\ ns_xsocket n = ""%string /\ ns_name n = ""%string) /\
  (forall name, how_to_run ns = Switch name <-> name <> ""%string /\ exists n, ns = Some n /\ ns_xsocket n = ""%string /\ ns_name n = name).
Proof. exact (how_ok ns). Qed.
Print Assumptions C69_how.

(** However calls of any number of threads interleave and whatever fails, a function runs with its thread in the namespace asked for. *)
Theorem C69_inside l s th ok s' : nruns ninit l = Some s -> nstep s (Step th ok) = Some s' -> s_log s' <> s_log s ->
  exists t o, s_phase s th = Inside t o /\ s_log s' = (th, t) :: s_log s.
Proof. exact (fn_in_target l s th ok s'). Qed.
Print Assumptions C69_inside.

(** A call of which the preparations succeed runs its function once and returns its result. *)
Theorem C69_complete l s th t : nruns ninit l = Some s -> s_phase s th = Idle ->
  forall b5 b6, exists s', nruns s [Start th t; Step th true; Step th true; Step th true; Step th b5; Step th b6] = Some s' /\
    s_phase s' th = Idle /\ s_log s' = (th, t) :: s_log s /\ s_res s' = (th, Done b5) :: s_res s /\ s_ns s' th = if b6 then s_ns s 0 else t.
Proof. exact (complete l s th t). Qed.
Print Assumptions C69_complete.

(** If one of them fails the call fails, the function does not run and the thread has not moved. *)
Theorem C69_failure s th t l : s_phase s th = Idle -> In l [[]; [true]; [true; true]] ->
  exists s', nruns s (Start th t :: map (Step th) (l ++ [false])) = Some s' /\ s_phase s' th = Idle /\ s_log s' = s_log s /\ s_res s' = (th, Failed) :: s_res s /\ s_ns s' th = s_ns s th.
Proof. exact (early_failure s th t l). Qed.
Print Assumptions C69_failure.

(** No descriptor stays open. *)
Theorem C69_descriptors l s th : nruns ninit l = Some s -> s_phase s th = Idle -> s_fds s th = 0.
Proof. exact (fds_closed l s th). Qed.
Print Assumptions C69_descriptors.

(** In orderly runs every thread is back in the namespace of the process when its call is over. *)
Theorem C69_home l s th : orderly ninit l s -> s_phase s th = Idle -> s_ns s th = 0.
Proof. exact (orderly_home l s th). Qed.
Print Assumptions C69_home.

(** Runs in which the main thread makes no call, and switching back never fails, are orderly. *)
Theorem C69_orderly l s : (forall t, ~ In (Start 0 t) l) -> nruns ninit l = Some s ->
  (forall pre th post sm t o r, l = pre ++ Step th false :: post -> nruns ninit pre = Some sm -> s_phase sm th <> Leaving t o r) -> orderly ninit l s.
Proof. exact (fun M R L => no_main l ninit s M eq_refl R L). Qed.
Print Assumptions C69_orderly.

(** "Every thread gets back" fails: one that starts a call while the main thread is in one goes to the main thread's target for good, as
    /proc/self is the main thread. *)
Theorem C69_race_refuted : exists s, nruns ninit ([Start 0 7; Step 0 true; Step 0 true; Step 0 true] ++ [Start 1 8; Step 1 true; Step 1 true; Step 1 true; Step 1 true; Step 1 true] ++ [Step 0 true; Step 0 true]) = Some s /\
  s_phase s 0 = Idle /\ s_phase s 1 = Idle /\ s_ns s 0 = 0 /\ s_ns s 1 = 7.
Proof. exact race. Qed.
Print Assumptions C69_race_refuted.

(** It also fails if switching back fails: the call succeeds and the thread is used for other goroutines in the wrong namespace. *)
Theorem C69_restore_refuted : exists s, nruns ninit [Start 1 8; Step 1 true; Step 1 true; Step 1 true; Step 1 true; Step 1 false] = Some s /\
  s_phase s 1 = Idle /\ s_ns s 1 = 8 /\ s_res s = [(1, Done true)].
Proof. exact stuck. Qed.
Print Assumptions C69_restore_refuted.

Example C69_ex_how : map how_to_run [None; Some (NetNS "vpn" ""); Some (NetNS "" "/run/x.sock"); Some (NetNS "" "")] = [Direct; Switch "vpn"; Refuse; Direct].
Proof. reflexivity. Qed.
(** two threads in different namespaces at the same time *)
Example C69_ex_two : option_map (fun s => (s_log s, s_ns s 1, s_ns s 2))
  (nruns ninit [Start 1 7; Step 1 true; Start 2 8; Step 2 true; Step 1 true; Step 2 true; Step 1 true; Step 2 true; Step 2 true; Step 1 true; Step 1 true; Step 2 true]) =
  Some ([(1, 7); (2, 8)], 0, 0).
Proof. vm_compute. reflexivity. Qed.
Example C69_ex_orderly : exists s, orderly ninit [Start 1 7; Step 1 true; Step 1 true; Step 1 true; Step 1 false; Step 1 true] s /\ s_log s = [(1, 7)].
Proof. exact orderly_demo. Qed.
