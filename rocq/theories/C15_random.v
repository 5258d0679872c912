(** C15: the random group. *)
From Verif Require Import Base Dns Groups_model Groups_spec Groups_proofs Groups_proofs5.
From Coq Require Import List Permutation.
Local Open Scope nat_scope.

(** Eligible resolvers and those waiting for reactivation are always the configured ones. *)
Theorem C15_conserved : forall good resolvers l s, exec (rnd_step good) (rnd_init resolvers) l = Some s ->
  Permutation (r_active s ++ r_sleep s) resolvers.
Proof. exact rnd_perm. Qed.
Print Assumptions C15_conserved.

(** Those that may be chosen are exactly those whose recorded failures were all followed by a
    reactivation. *)
Theorem C15_eligible : forall good resolvers l s x, exec (rnd_step good) (rnd_init resolvers) l = Some s -> In x resolvers ->
  (In x (r_active s) <-> eligible x l).
Proof. exact (fun good resolvers l s x H => proj2 (proj2 (rnd_eligible good resolvers l s H)) x). Qed.
Print Assumptions C15_eligible.

(** A finished call asked configured resolvers only, returned the first good reply; it failed only
    at a moment when no resolver was eligible. *)
Theorem C15_call : forall good resolvers l s t r, exec (rnd_step good) (rnd_init resolvers) l = Some s -> r_pc s t = Returned r ->
  rnd_finished resolvers good t r l.
Proof.
  exact (fun good resolvers l s t r H Hr => eq_ind (r_pc s t) (fun p => rthread_ok good resolvers t p l)
    (rnd_thread good resolvers l s t H) _ Hr).
Qed.
Print Assumptions C15_call.

(** One resolver that always answers well is enough for every call to succeed. *)
Theorem C15_available : forall good resolvers g l s t r, In g resolvers -> exec (rnd_step good) (rnd_init resolvers) l = Some s ->
  always_good good g l -> r_pc s t = Returned r -> good r = true.
Proof. exact rnd_good_answer. Qed.
Print Assumptions C15_available.

(** A call asks the same resolver again only if it was reactivated in the meantime. *)
Theorem C15_attempts : forall good resolvers l1 s1 l2 s t x, exec (rnd_step good) (rnd_init resolvers) l1 = Some s1 ->
  exec (rnd_step good) s1 l2 = Some s -> count_occ Nat.eq_dec (sents (mine t l2)) x <= reacts x l2 + 1.
Proof. exact rnd_attempts. Qed.
Print Assumptions C15_attempts.

(** Two resolvers, both fail; a second call finds nothing; one comes back. *)
Definition C15_run : list gevent :=
  [Call 0; Sent 0 1; Reply 0 (Err "x"); Failed 0; Sent 0 0; Reply 0 (Err "y"); Failed 0; NoneLeft 0; Call 1; NoneLeft 1;
   Reactivate 1; Call 2; Sent 2 1; Reply 2 Drop].
Example C15_run_ok : option_map (fun s => (r_pc s 1, r_pc s 2, r_active s, r_sleep s))
    (exec (rnd_step (good_reply false false)) (rnd_init [0; 1]) C15_run) =
  Some (Returned (Err "no active resolvers left"), Returned Drop, [1], [0]).
Proof. vm_compute. reflexivity. Qed.
(** There is no bound on the attempts of one call in the number of resolvers alone: with a short
    reset period a failing resolver is asked again and again. *)
Fixpoint again (k : nat) : list gevent :=
  match k with O => [] | S k' => [Sent 0 0; Reply 0 (Err "x"); Failed 0; Reactivate 0] ++ again k' end.
Example C15_again :
  option_map (fun s => r_pc s 0) (exec (rnd_step (good_reply false false)) (rnd_init [0]) (Call 0 :: again 5)) = Some (Ready 5 (Err "x")) /\
  length (sents (mine 0 (Call 0 :: again 5))) = 5.
Proof. split; vm_compute; reflexivity. Qed.
