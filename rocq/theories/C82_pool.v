(** C82: the buffers that the back ends of the cache share. *)
From Verif Require Import Base Pool_model Pool_spec Pool_proofs.
From Coq Require Import Permutation.
Local Open Scope nat_scope.

(** What is stored is the record that was encoded, byte for byte, whoever else encodes, writes in the background or gives buffers back meanwhile. *)
Theorem C82_stored : forall cap s i c v, reachable cap s -> nth_error (calls s) i = Some (c, Done (Some v)) -> v = meant c /\ fails c = false.
Proof. exact stored. Qed.
Print Assumptions C82_stored.
(** No two calls work on the same array, no call works on an array that the pool can hand out, and the pool hands out no array twice. *)
Theorem C82_apart : forall cap s, reachable cap s ->
  (forall i j c d x y a, nth_error (calls s) i = Some (c, x) -> nth_error (calls s) j = Some (d, y) -> i <> j -> In a (uses x) -> ~ In a (uses y)) /\
  (forall i c x a p, nth_error (calls s) i = Some (c, x) -> In a (uses x) -> In p (pool s) -> target s p <> a) /\
  NoDup (map (target s) (pool s)).
Proof. exact apart. Qed.
Print Assumptions C82_apart.
(** Only a write in the background is ever left out, if packing works. *)
Theorem C82_left_out : forall cap s i c, reachable cap s -> nth_error (calls s) i = Some (c, Done None) -> fails c = true \/ knd c = Async.
Proof. exact skipped. Qed.
Print Assumptions C82_left_out.
(** And that only if as many writes as allowed are under way; otherwise it begins. *)
Theorem C82_full : forall cap s i c p r, reachable cap s -> nth_error (calls s) i = Some (c, Choose p r) -> exists s', step cap (Go i) s = Some s' /\
  nth_error (calls s') i = Some (c, if writers s =? cap then Put p false None else Read p r []).
Proof. exact skip_full. Qed.
Print Assumptions C82_full.
(** There are never more, and a place in the semaphore is taken for each write and no more. *)
Theorem C82_limit : forall cap s, reachable cap s -> writers s <= cap /\ sem s = writers s.
Proof. exact limit. Qed.
Print Assumptions C82_limit.
(** No call panics, or waits for another. *)
Theorem C82_goes_on : forall cap s i c x, reachable cap s -> nth_error (calls s) i = Some (c, x) -> ~ finished x -> exists l s', (l = Go i \/ l = Get i None) /\ step cap l s = Some s'.
Proof. exact goes_on. Qed.
Print Assumptions C82_goes_on.
Theorem C82_ends : forall cap ls s i c x, made ls -> run cap ls init = Some s -> nth_error (calls s) i = Some (c, x) -> steps_of i ls <= 3 * length (wire c) + 30.
Proof. exact bounded. Qed.
Print Assumptions C82_ends.
(** Each buffer is put back, once. *)
Theorem C82_back : forall cap ls s, made ls -> no_drop ls -> run cap ls init = Some s -> (forall i c x, nth_error (calls s) i = Some (c, x) -> finished x) ->
  Permutation (pool s) (seq 0 (length (ptrs s))).
Proof. exact all_back. Qed.
Print Assumptions C82_back.
(** A buffer of the pool has at least 2048 bytes, and never becomes smaller. *)
Theorem C82_grown : forall cap s p, reachable cap s -> p < length (ptrs s) -> 2048 <= size s (target s p).
Proof. exact grown. Qed.
Print Assumptions C82_grown.
Theorem C82_grows : forall cap s ls s' p, reachable cap s -> made ls -> run cap ls s = Some s' -> p < length (ptrs s) -> size s (target s p) <= size s' (target s' p).
Proof. exact grown_run. Qed.
Print Assumptions C82_grows.
(** The memory back end adapts the pool: a buffer that was used for an answer holds any answer that needs no more, without a new array. *)
Theorem C82_adapts : forall cap s i c p r s1 ls s2 n j d, reachable cap s -> nth_error (calls s) i = Some (c, Adopt p r) -> knd c = Memory -> step cap (Go i) s = Some s1 ->
  made ls -> run cap ls s1 = Some s2 -> nth_error (pool s2) n = Some p -> nth_error (calls s2) j = Some (d, Start) -> offset d + need d <= need c ->
  exists s3, step cap (Get j (Some n)) s2 = Some s3 /\ heap s3 = heap s2 /\ nth_error (calls s3) j = Some (d, Pack p (target s2 p) (target s2 p) 0).
Proof. exact adapts. Qed.
Print Assumptions C82_adapts.
(** The Redis back end does not: the array it makes for an answer that did not fit, and leaves to the pool, is always too small for this same answer. *)
Theorem C82_adapts_refuted : forall cap s i c p a r k, reachable cap s -> nth_error (calls s) i = Some (c, Move p a r k) -> size s r < offset c + need c.
Proof. exact too_small. Qed.
Print Assumptions C82_adapts_refuted.

(** Two writes in the background with one place, and a call of the memory back end: the second is left out, and its buffer goes to the third while the first is still being sent. *)
Definition C82_hdr (t : N) : list N := [1; 0; 0; 0; 0; 0; 0; 0; 0; t]%N.
Definition C82_a := Call Async (C82_hdr 7) [11; 12; 13]%N 20 false.
Definition C82_b := Call Async (C82_hdr 8) [21; 22]%N 20 false.
Definition C82_c := Call Memory (C82_hdr 0) [31; 32; 33; 34]%N 20 false.
Definition C82_run : list label :=
  [New C82_a; New C82_b; Get 0 None] ++ repeat (Go 0) 20 ++ [Get 1 None] ++ repeat (Go 1) 17 ++ [New C82_c; Get 2 (Some 0)] ++ repeat (Go 2) 7 ++ repeat (Go 0) 13 ++ repeat (Go 2) 5.
Example C82_ex_made : made C82_run.
Proof.
  intros c H. unfold C82_run in H. repeat (apply in_app_or in H as [H|H]); cbn in H; repeat (destruct H as [H|H]; [try discriminate; injection H as <-; repeat split; cbn; try discriminate; lia|]); contradiction.
Qed.
Example C82_ex_run : option_map (fun s => (map snd (calls s), pool s, sem s)) (run 1 C82_run init) =
  Some ([Done (Some [1; 0; 0; 0; 0; 0; 0; 0; 0; 7; 11; 12; 13]%N); Done None; Done (Some [31; 32; 33; 34]%N)], [1; 0], 0).
Proof. vm_compute. reflexivity. Qed.
(** An answer that packs to little and needs more than the buffer: the second time there are again two new arrays *)
Definition C82_d := Call Sync (C82_hdr 9) [41; 42; 43]%N 2100 false.
Example C82_ex_again : option_map (fun s => (map snd (calls s), length (heap s))) (run 1 ([New C82_d; Get 0 None] ++ repeat (Go 0) 35 ++ [New C82_d; Get 1 (Some 0)] ++ repeat (Go 1) 4) init) =
  Some ([Done (Some [1; 0; 0; 0; 0; 0; 0; 0; 0; 9; 41; 42; 43]%N); Move 0 3 4 0], 5).
Proof. vm_compute. reflexivity. Qed.
(** The memory back end with the same answer: one new array the first time, none the second time *)
Definition C82_e := Call Memory (C82_hdr 0) [51; 52; 53]%N 2100 false.
Example C82_ex_adapts : option_map (fun s => (map snd (calls s), length (heap s))) (run 1 ([New C82_e; Get 0 None] ++ repeat (Go 0) 4) init) = Some ([Adopt 0 1], 2) /\
  option_map (fun s => (map snd (calls s), length (heap s))) (run 1 ([New C82_e; Get 0 None] ++ repeat (Go 0) 10 ++ [New C82_e; Get 1 (Some 0)]) init) = Some ([Done (Some [51; 52; 53]%N); Pack 0 1 1 0], 2).
Proof. vm_compute. auto. Qed.
