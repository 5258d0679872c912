(** C10: answer shuffling is a permutation that moves only address records. *)
From Verif Require Import Base Dns Cache_model Shuffle_spec Shuffle_proofs Cache_demo.
From Coq Require Import Permutation.
Local Open Scope nat_scope.

(** Whatever swaps the random source asks for. *)
Theorem C10_random : forall choices m, shuffled m (AnswerShuffleRandom choices m).
Proof. exact random_shuffled. Qed.
Print Assumptions C10_random.

(** Whatever the stored counter. *)
Theorem C10_roundrobin : forall reads m, shuffled m (snd (AnswerShuffleRoundRobin reads m)).
Proof. exact roundrobin_shuffled. Qed.
Print Assumptions C10_roundrobin.

(** Over as many hits as there are addresses (each hit may carry other TTLs) every address comes
    first once. *)
Theorem C10_roundrobin_cycle :
  forall d A ms reads, 2 <= length A -> length ms = length A ->
    Forall (fun m => addresses m = A /\ ends m) ms ->
    (next_reads reads + N.of_nat (length ms) <= 2^64)%N ->
    Permutation A (firsts d (hits reads ms)).
Proof. exact roundrobin_ends. Qed.
Print Assumptions C10_roundrobin_cycle.

Definition cname : rr := RR "w." 5 1 9 (DCNAME "a.").
Definition mixed : msg := set_answer [cname; a_rr "a." 9 1; a_rr "a." 9 2; cname; a_rr "a." 9 3] empty_msg.
Example C10_moves : m_answer (AnswerShuffleRandom [(0, 2); (1, 2)] mixed) = [cname; a_rr "a." 9 3; a_rr "a." 9 1; cname; a_rr "a." 9 2].
Proof. reflexivity. Qed.
Example C10_rr : map (fun m => map rr_data (filter is_addr (m_answer m))) (hits None [mixed; mixed; mixed]) =
  let d n := DA [10; 0; 0; n]%N in [[d 3; d 1; d 2]; [d 2; d 3; d 1]; [d 1; d 2; d 3]]%N.
Proof. vm_compute. reflexivity. Qed.
Example C10_hyps : Forall (fun m => addresses m = addresses mixed /\ ends m) [mixed; mixed; mixed] /\ length (addresses mixed) = 3.
Proof.
  split; [|reflexivity]. assert (E : ends mixed) by (exists cname; split; [left; reflexivity|split; [discriminate|reflexivity]]). repeat constructor; exact E.
Qed.
