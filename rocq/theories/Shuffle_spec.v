(** Specification of the answer shuffles (C10). *)
From Verif Require Import Base Dns Cache_model.
From Coq Require Import Permutation.

(** A and AAAA records *)
Definition address (r : rr) : bool := (rr_type r =? 1)%N || (rr_type r =? 28)%N.

(** What the shuffles have to preserve: the records as a multiset, the positions of everything
    that is not an address, and the rest of the message. *)
Definition shuffled (m m' : msg) : Prop :=
  m' = set_answer (m_answer m') m /\ Permutation (m_answer m) (m_answer m') /\
  forall k r, nth_error (m_answer m) k = Some r -> address r = false -> nth_error (m_answer m') k = Some r.

(** Records without their TTL *)
Definition plain (r : rr) : rr := set_ttl 0 r.
Definition addresses (m : msg) : list rr := map plain (filter address (m_answer m)).

(* consecutive hits *)
Fixpoint hits (reads : option N) (ms : list msg) : list msg :=
  match ms with
  | [] => []
  | m :: ms' => let p := AnswerShuffleRoundRobin reads m in snd p :: hits (fst p) ms'
  end.

(** Shift count of the next hit *)
Definition next_reads (reads : option N) : N := match reads with Some n => (n + 1) mod 2^64 | None => 0 end.

(** First address of each answer *)
Definition firsts (d : rr) (ms : list msg) : list rr := map (fun m => nth 0 (addresses m) (plain d)) ms.
(** Some record has a TTL that ends. *)
Definition ends (m : msg) : Prop := exists r, In r (m_answer m ++ m_ns m ++ m_extra m) /\ (forall o, rr_data r <> DOPT o) /\ (rr_ttl r < 4294967295)%N.
