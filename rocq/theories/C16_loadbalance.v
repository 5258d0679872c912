(** C16: load-balance. *)
From Verif Require Import Base Dns Groups_model Groups_spec Groups_proofs6.
From Coq Require Import List QArith.
Local Open Scope nat_scope.

(** The position picked is in range whatever the statistics and the random numbers. *)
Theorem C16_pick_in_range : forall stats r1 r2 remaining, (0 <= r2 < 1)%Q -> remaining <> [] ->
  lb_pick stats r1 r2 remaining < length remaining.
Proof. exact lb_pick_range. Qed.
Print Assumptions C16_pick_in_range.

(** A call ends; it asked pairwise different resolvers, at most n; all but the last gave bad
    replies; the last reply is returned, and if it is bad all n were asked. *)
Theorem C16_call : forall sf em picks up n, (forall k rem, rem <> [] -> picks k rem < length rem) ->
  exists asked r, lb_resolve (good_reply sf em) picks up n = Some (asked, r) /\
                  lb_finished n (good_reply sf em) up asked r.
Proof. exact (fun sf em picks up n H => lb_spec (good_reply sf em) eq_refl picks up H n eq_refl). Qed.
Print Assumptions C16_call.

(** If some resolver would succeed, the call succeeds. *)
Theorem C16_available : forall sf em picks up n g asked r, (forall k rem, rem <> [] -> picks k rem < length rem) ->
  g < n -> (forall k, good_reply sf em (up k g) = true) ->
  lb_resolve (good_reply sf em) picks up n = Some (asked, r) -> good_reply sf em r = true.
Proof. exact (fun sf em picks up n g asked r H => lb_success (good_reply sf em) eq_refl picks up H n g asked r eq_refl). Qed.
Print Assumptions C16_available.

(** Nobody is starved: every remaining resolver can be picked whatever the statistics, and no
    weight leaves (0, 100], whatever was measured. *)
Theorem C16_explores : forall stats remaining pos, pos < length remaining ->
  exists r1 r2, (0 <= r1 < 1)%Q /\ (0 <= r2 < 1)%Q /\ lb_pick stats r1 r2 remaining = pos.
Proof. exact lb_pick_explores. Qed.
Print Assumptions C16_explores.
Theorem C16_weights : forall penalty updates,
  (0 < weight (fold_left (apply_update penalty) updates lbs0) <= 100)%Q.
Proof. exact lb_weights. Qed.
Print Assumptions C16_weights.

(** Three resolvers, the last position is always picked; resolvers 2 and 1 fail. *)
Definition up3 (k idx : nat) : result := if Nat.eqb idx 0 then Drop else Err "x".
Example C16_run : lb_resolve (good_reply false false) (fun _ rem => length rem - 1) up3 3 = Some ([2; 1; 0], Drop).
Proof. reflexivity. Qed.
Example C16_run_first : lb_resolve (good_reply false false) (fun _ _ => 0) (fun _ _ => Err "x") 3 = Some ([0; 2; 1], Err "x").
Proof. reflexivity. Qed.
Example C16_empty : lb_resolve (good_reply false false) (fun _ _ => 0) (fun _ _ => Drop) 0 = Some ([], Err "no active resolvers left").
Proof. reflexivity. Qed.
Example C16_weight : (weight (updateOnSuccess 50 lbs0) == 100)%Q /\ (weight (updateOnFailure 0 50 lbs0) == 1)%Q /\
  (weight (updateOnSuccess 200000 lbs0) == 1 # 2)%Q.
Proof. repeat split; reflexivity. Qed.
Example C16_pick : map (fun r2 => lb_pick (fun i => if Nat.eqb i 0 then updateOnSuccess 50 lbs0 else lbs0) (1 # 2) r2 [0; 1]) [0; 1 # 2; 995 # 1000]%Q = [0; 0; 1].
Proof. reflexivity. Qed.
