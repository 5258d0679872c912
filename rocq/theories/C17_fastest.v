(** C17: the fastest group. *)
From Verif Require Import Base Dns Groups_model Groups_spec Groups_proofs6.
From Coq Require Import List Permutation.
Local Open Scope nat_scope.

(** What is returned is the first usable response in the order of arrival, or the last of n if
    there is none. *)
Theorem C17_first_usable : forall n l s r, fastest_exec n (fastest_init n) l = Some s -> f_ret s = Some r ->
  fastest_of n (arrivals l) r.
Proof.
  exact (fun n l s r H Hr => eq_ind (f_ret s) (fun o => match o with Some r => fastest_of n (arrivals l) r | None => True end)
    (match f_ret s as o return match o with
       | None => exists taken, arrivals l = taken ++ f_chan s /\ length taken = f_i s /\ Forall (fun x => ~ fast_usable x) taken /\
                          (f_i s < n \/ (n = 0 /\ f_i s = 0))
       | Some r => fastest_of n (arrivals l) r end -> match o with Some r => fastest_of n (arrivals l) r | None => True end
     with Some r => fun x => x | None => fun _ => I end (proj2 (proj2 (fastest_inv n l s H)))) _ Hr).
Qed.
Print Assumptions C17_first_usable.

(** Every resolver is asked at most once, and once all goroutines ran exactly once. *)
Theorem C17_asked_once : forall n l s, fastest_exec n (fastest_init n) l = Some s ->
  Permutation (asks l ++ f_todo s) (seq 0 n).
Proof. exact (fun n l s H => proj1 (fastest_inv n l s H)). Qed.
Print Assumptions C17_asked_once.

(** With at least one resolver the call does not get stuck. *)
Theorem C17_progress : forall n l s, 0 < n -> fastest_exec n (fastest_init n) l = Some s -> f_ret s = None ->
  (exists i, fastest_step n s (Ask i) <> None) \/ (exists i, forall r, fastest_step n s (Arrive i r) <> None) \/
  fastest_step n s Take <> None.
Proof. exact fastest_progress. Qed.
Print Assumptions C17_progress.

Definition servfail17 : result := Ans (set_rcode_field RcodeServerFailure empty_msg).
Example C17_run : exists s, fastest_exec 3 (fastest_init 3)
  [Ask 2; Ask 0; Arrive 0 servfail17; Take; Ask 1; Arrive 1 Drop; Arrive 2 (Ans empty_msg); Take] = Some s /\ f_ret s = Some Drop.
Proof. eexists. split; reflexivity. Qed.
Example C17_all_bad : exists s, fastest_exec 2 (fastest_init 2)
  [Ask 0; Ask 1; Arrive 1 (Err "x"); Arrive 0 servfail17; Take; Take] = Some s /\ f_ret s = Some servfail17.
Proof. eexists. split; reflexivity. Qed.
(** With no resolver the call waits for ever. *)
Example C17_none : forall e, fastest_step 0 (fastest_init 0) e = None.
Proof. intros []; reflexivity. Qed.
