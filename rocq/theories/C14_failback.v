(** C14: fail-back. *)
From Verif Require Import Base Dns Groups_model Groups_spec Groups_proofs Groups_proofs2 Groups_proofs3 Groups_proofs4.
From Coq Require Import List.
Local Open Scope nat_scope.

(** At most n attempts; the first good reply is returned, or the last of n bad ones. *)
Theorem C14_call : forall n good reset l s t r, exec (fb_step n good reset) fb_init l = Some s -> fb_pc s t = Returned r ->
  finished n good t r (mine t l).
Proof.
  exact (fun n good reset l s t r H Hr => proj1 (eq_ind (fb_pc s t) (fun p => thread_ok n good t p (mine t l) /\ (0 < n -> fb_active s < n))
    (fb_thread n good reset l s t H) _ Hr)).
Qed.
Print Assumptions C14_call.

Theorem C14_in_range : forall n good reset l s, 0 < n -> exec (fb_step n good reset) fb_init l = Some s -> fb_active s < n.
Proof. exact (fun n good reset l s Hn H => proj2 (fb_thread n good reset l s 0 H) Hn). Qed.
Print Assumptions C14_in_range.

(** With the reset disabled every call asks 0, 1, 2, ... in that order. *)
Theorem C14_no_reset_order : forall n good l s t r, exec (fb_step n good 0) fb_init l = Some s -> fb_pc s t = Returned r ->
  exists k, sents (mine t l) = seq 0 k.
Proof.
  exact (fun n good l s t r H Hr => eq_ind (fb_pc s t) (fun p => order_ok p (sents (mine t l)))
    (fb_order n good 0%Z l s t eq_refl H) _ Hr).
Qed.
Print Assumptions C14_no_reset_order.
Theorem C14_no_reset_available : forall n good g l s t r, g < n -> exec (fb_step n good 0) fb_init l = Some s ->
  always_good good g l -> fb_pc s t = Returned r -> good r = true.
Proof.
  exact (fun n good g l s t r Hg H Ha Hr => eq_ind (fb_pc s t) (before good g)
    (proj2 (fb_before n good 0%Z g Hg l s t eq_refl H Ha)) _ Hr).
Qed.
Print Assumptions C14_no_reset_available.

(** If one resolver always gives good replies, a call during which no reset happens succeeds. *)
Theorem C14_available : forall n good reset g l1 l2 s t r, g < n -> reset <> 0%Z ->
  exec (fb_step n good reset) fb_init (l1 ++ Call t :: l2) = Some s ->
  always_good good g (l1 ++ Call t :: l2) -> ~ In TimerFire l2 -> fb_pc s t = Returned r -> good r = true.
Proof. exact (fun n good reset g l1 l2 s t r Hg => fb_good_answer n good reset g Hg l1 l2 s t r). Qed.
Print Assumptions C14_available.

(** After failures the first resolver becomes active again: once no call is busy reporting a
    failure and the timer has seen all reports, the reset is at most the reset period away. *)
Theorem C14_returns : forall n good reset l s, (0 <= reset)%Z -> exec (fb_step n good reset) fb_init l = Some s ->
  fb_active s <> 0 -> ~ (exists t i r, fb_pc s t = Signalling i r) -> fb_token s = false -> fb_timer s <> Starting ->
  exists d s', (0 <= d <= reset)%Z /\ exec (fb_step n good reset) s [Pass d; TimerFire] = Some s' /\ fb_active s' = 0.
Proof. exact fb_returns. Qed.
Print Assumptions C14_returns.

(** The reset does not come early: since the timer was started, and since it last took note of a
    failure, a whole reset period has passed. *)
Theorem C14_not_early : forall n good reset l1 e l2 s, e = Consume \/ e = TimerStart -> ~ In Consume l2 ->
  exec (fb_step n good reset) fb_init (l1 ++ e :: l2 ++ [TimerFire]) = Some s -> (reset <= elapsed l2)%Z.
Proof. exact fb_not_early. Qed.
Print Assumptions C14_not_early.

(** A failed resolver is skipped until a reset: while no reset happens and failures are not
    reported, the active resolver stays. *)
Theorem C14_stays : forall n good reset s l s', exec (fb_step n good reset) s l = Some s' ->
  failures l = [] -> ~ In TimerFire l -> fb_active s' = fb_active s.
Proof. exact fb_stays. Qed.
Print Assumptions C14_stays.

(** Resolver 0 fails, resolver 1 takes over; 60 s after the failure the first one is used again. *)
Definition C14_run : list gevent :=
  [Call 0; Sent 0 0; Reply 0 (Err "x"); Failed 0; TimerStart; Signal 0; Consume; Sent 0 1; Reply 0 Drop;
   Call 1; Sent 1 1; Reply 1 Drop].
Definition seen (o : option fb) := option_map (fun s => (fb_active s, fb_token s, fb_timer s, fb_pc s 2)) o.
Example C14_run_ok : seen (exec (fb_step 2 (good_reply false false) 60) fb_init C14_run) = Some (1, false, Armed 60, Idle).
Proof. vm_compute. reflexivity. Qed.
Example C14_run_reset : seen (exec (fb_step 2 (good_reply false false) 60) fb_init
  (C14_run ++ [Pass 60; TimerFire; Call 2; Sent 2 0])) = Some (0, false, Waitfail, Waiting 0 0).
Proof. vm_compute. reflexivity. Qed.
Example C14_run_early : seen (exec (fb_step 2 (good_reply false false) 60) fb_init (C14_run ++ [Pass 59; TimerFire])) = None.
Proof. vm_compute. reflexivity. Qed.
(** Why C14_available excludes a reset during the call: here resolver 1 is fine, but the reset
    leads the call back to resolver 0, which uses up its two attempts. *)
Example C14_reset_race : seen (exec (fb_step 2 (good_reply false false) 60) fb_init
  (C14_run ++ [Pass 60; TimerFire; Call 2; Sent 2 0; Reply 2 (Err "x"); Failed 2; Signal 2; Consume; Pass 60; TimerFire;
               Sent 2 0; Reply 2 (Err "x"); Failed 2; Signal 2])) = Some (1, true, Waitfail, Returned (Err "x")).
Proof. vm_compute. reflexivity. Qed.
