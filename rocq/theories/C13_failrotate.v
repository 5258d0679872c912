(** C13: fail-rotate. *)
From Verif Require Import Base Dns Groups_model Groups_spec Groups_proofs Groups_proofs2 Groups_proofs3.
From Coq Require Import List.
Local Open Scope nat_scope.

(** What a usable reply is, see [usable]. *)
Theorem C13_usable : forall sf em r, good_reply sf em r = true <-> usable sf em r.
Proof. exact good_reply_spec. Qed.
Print Assumptions C13_usable.

(** In any interleaving a finished call made at most n attempts, stopped at the first good reply
    and returned it unchanged, or returned the last of n bad ones. *)
Theorem C13_call : forall n good l s t r, exec (fr_step n good) g_init l = Some s -> g_pc s t = Returned r ->
  finished n good t r (mine t l).
Proof.
  exact (fun n good l s t r H Hr => proj1 (eq_ind (g_pc s t) (fun p => thread_ok n good t p (mine t l) /\ (0 < n -> g_active s < n))
    (fr_thread n good l s t H) _ Hr)).
Qed.
Print Assumptions C13_call.

Theorem C13_in_range : forall n good l s, 0 < n -> exec (fr_step n good) g_init l = Some s -> g_active s < n.
Proof. exact fr_active. Qed.
Print Assumptions C13_in_range.

(** A call that runs alone asks the active resolver and the following ones, each once. *)
Theorem C13_distinct : forall n good l0 s0 l s t, 0 < n -> exec (fr_step n good) g_init l0 = Some s0 ->
  g_pc s0 t = Idle -> exec (fr_step n good) s0 l = Some s -> (forall e, In e l -> of_call t e = true) ->
  exists k, sents l = map (fun j => (g_active s0 + j) mod n) (seq 0 k).
Proof. exact (fun n good l0 s0 l s t Hn H0 Hi H Ho => fr_seq n good l s0 s t Hi (fr_active n good l0 s0 Hn H0) H Ho). Qed.
Print Assumptions C13_distinct.
Theorem C13_distinct_once : forall n a k, k <= n -> NoDup (map (fun j => (a + j) mod n) (seq 0 k)).
Proof. exact upto_nodup. Qed.
Print Assumptions C13_distinct_once.

(** Any number of calls that got a bad reply from the same resolver p move the position by one if
    p is the active one, and not at all otherwise, in whatever order they record it and whatever
    other calls do in between. *)
Theorem C13_coalesce : forall n good s l s' p, 2 <= n -> g_active s < n -> exec (fr_step n good) s l = Some s' ->
  (forall t, In t (failures l) -> exists i r, g_pc s t = Bad i p r) -> NoDup (failures l) -> failures l <> [] ->
  g_active s' = if Nat.eqb p (g_active s) then (g_active s + 1) mod n else g_active s.
Proof. exact fr_coalesce. Qed.
Print Assumptions C13_coalesce.

(** Without recorded failures the position does not move. *)
Theorem C13_stays : forall n good s l s', exec (fr_step n good) s l = Some s' -> failures l = [] -> g_active s' = g_active s.
Proof. exact fr_stays. Qed.
Print Assumptions C13_stays.

(** If one of the resolvers always gives good replies, every call succeeds, whatever the other
    resolvers do and however calls overlap. *)
Theorem C13_available : forall n good g l s t r, g < n -> exec (fr_step n good) g_init l = Some s -> always_good good g l ->
  g_pc s t = Returned r -> good r = true.
Proof. exact (fun n good g l s t r Hg => fr_good_answer n good g Hg l s t r). Qed.
Print Assumptions C13_available.

(** Two calls fail with resolver 0 at the same time; both end up with resolver 1. *)
Definition C13_run : list gevent :=
  [Call 0; Call 1; Sent 0 0; Sent 1 0; Reply 0 (Err "x"); Reply 1 (Err "y"); Failed 0; Sent 0 1; Failed 1; Sent 1 1;
   Reply 0 Drop; Reply 1 Drop].
Example C13_run_ok : option_map (fun s => (g_pc s 0, g_pc s 1, g_active s)) (exec (fr_step 2 (good_reply false false)) g_init C13_run) =
  Some (Returned Drop, Returned Drop, 1).
Proof. vm_compute. reflexivity. Qed.
Example C13_run_good : always_good (good_reply false false) 1 C13_run.
Proof.
  intros l1 t r l2 E Hs.
  do 12 (destruct l1 as [|e1 l1]; [inversion E; subst; vm_compute in Hs; try discriminate; reflexivity|
                                   cbn [app] in E; injection E as <- E]).
  destruct l1; discriminate.
Qed.
Definition C13_two : list gevent := [Call 0; Call 1; Sent 0 0; Sent 1 0; Reply 0 (Err "x"); Reply 1 (Err "y")].
Example C13_coalesce_hyps :
  option_map (fun s => (g_pc s 0, g_pc s 1, g_active s)) (exec (fr_step 3 (good_reply false false)) g_init C13_two) =
    Some (Bad 0 0 (Err "x"), Bad 0 0 (Err "y"), 0) /\
  option_map g_active (exec (fr_step 3 (good_reply false false)) g_init (C13_two ++ [Failed 0; Failed 1])) = Some 1.
Proof. split; vm_compute; reflexivity. Qed.
(** With a reply that is empty on purpose the group does not move on. *)
Definition opt15 : rr := RR "." TypeOPT 1232 0 (DOPT [EDE 15 ""]).
Definition blocked : msg := set_extra [opt15] empty_msg.
Example C13_blocked : good_reply true true (Ans blocked) = true /\ good_reply true true (Ans empty_msg) = false.
Proof. split; reflexivity. Qed.
