(** C04: the in-memory cache is a bounded, most-recently-used map. *)
From Verif Require Import Base Bytes Dns Blob_model Blob_spec Blob_proofs Lru_model Lru_spec Lru_proofs Lru_proofs2 Cache_model Cache_spec Cache_proofs5.
Open Scope N_scope.

(** Without colliding hashes the linked list and index behave, result by result and size by
    size, as a list of entries kept in order of use and cut to the capacity; no operation
    dereferences nil or runs on. *)
Theorem C04_lru_refines :
  forall hash cap (ops : list (op lruKey bytes)),
    Forall (fun o => match o with Add _ _ k b => stored k b | _ => True end) ops ->
    inj_on lruKey hash (keys_of lruKey bytes ops) ->
    exists c, run lruKey bytes matchesKey hash (cache_new cap) ops =
              Some (c, snd (spec_run lruKey bytes key_eq cap [] ops)).
Proof. exact lru_refines. Qed.
Print Assumptions C04_lru_refines.

(** Whatever the hash function, a lookup returns nothing or the value last stored under exactly
    that key and not removed since; the number of entries never exceeds a positive capacity. *)
Theorem C04_lru_sound :
  forall hash cap (ops : list (op lruKey bytes)) k,
    Forall (fun o => match o with Add _ _ k b => stored k b | _ => True end) ops ->
    exists c outs r n,
      run lruKey bytes matchesKey hash (cache_new cap) (ops ++ [Get _ _ k]) = Some (c, outs ++ [(r, n)]) /\
      length outs = length ops /\
      (forall b, r = Some b -> current lruKey bytes key_eq None k ops = Some b) /\
      ((0 < cap)%Z -> Forall (fun o => (Z.of_nat (snd o) <= cap)%Z) (outs ++ [(r, n)])).
Proof. exact lru_sound. Qed.
Print Assumptions C04_lru_sound.

(** An entry that was stored or read is still there as long as fewer than [cap] other keys were
    stored or read since (any number if the capacity is not positive): what is pushed out is
    the least recently used. *)
Theorem C04_lru_survives :
  forall hash cap pre mid k b,
    Forall (fun o => match o with Add _ _ k b => stored k b | _ => True end) (pre ++ Add lruKey bytes k b :: mid ++ [Get _ _ k]) ->
    inj_on lruKey hash (keys_of lruKey bytes (pre ++ Add _ _ k b :: mid ++ [Get _ _ k])) ->
    Forall (keeps lruKey bytes k b) mid ->
    ((cap <= 0)%Z \/ (Z.of_nat (length (others lruKey bytes key_eq k mid)) < cap)%Z) ->
    exists c outs n,
      run lruKey bytes matchesKey hash (cache_new cap) (pre ++ Add _ _ k b :: mid ++ [Get _ _ k]) = Some (c, outs ++ [(Some b, n)]).
Proof. exact lru_survives. Qed.
Print Assumptions C04_lru_survives.

(** Three keys, capacity two: reading [ka] keeps it, [kb] is pushed out. *)
Definition ka := Key (Q "a." 1 1) "" false false 0.
Definition kb := Key (Q "b." 1 1) "" false false 0.
Definition kc := Key (Q "c." 1 1) "" true false 0.
Definition blob_of (k : lruKey) (n : N) : bytes :=
  match newCacheBlobFromWire k (Meta (Some 5%Z) (Some 9%Z) false) [n] with Some b => b | None => [] end.
Definition toy_hash (k : lruKey) : N := match q_name (k_q k) with "a."%string => 1 | "b."%string => 2 | _ => 3 end.
Definition demo : list (op lruKey bytes) :=
  [Add _ _ ka (blob_of ka 1); Add _ _ kb (blob_of kb 2); Get _ _ ka; Add _ _ kc (blob_of kc 3); Get _ _ ka; Get _ _ kb; Get _ _ kc].
Example C04_demo :
  option_map (fun p => map (option_map b_message) (map fst (snd p))) (run lruKey bytes matchesKey toy_hash (cache_new 2) demo)
  = Some [None; None; Some [1]; None; Some [1]; None; Some [3]]
  /\ option_map (fun p => map snd (snd p)) (run lruKey bytes matchesKey toy_hash (cache_new 2) demo)
  = Some [1; 2; 2; 2; 2; 2; 2]%nat.
Proof. split; vm_compute; reflexivity. Qed.

(** The hypotheses hold for it. *)
Example C04_demo_hyps :
  Forall (fun o => match o with Add _ _ k b => stored k b | _ => True end) demo /\
  inj_on lruKey toy_hash (keys_of lruKey bytes demo).
Proof.
  assert (S : forall k n, key_ok k -> stored k (blob_of k n)).
  { intros k n Hk. destruct (newBlob_total k (Meta (Some 5%Z) (Some 9%Z) false) [n] Hk) as (b & E). unfold blob_of. rewrite E. eexists _, _; eauto. }
  assert (Ka : key_ok ka /\ key_ok kb /\ key_ok kc) by (unfold key_ok; cbn; repeat split; first [reflexivity|discriminate]).
  destruct Ka as (Ka & Kb & Kc). split.
  - repeat constructor; apply S; assumption.
  - assert (D : forall k, In k (keys_of lruKey bytes demo) -> k = ka \/ k = kb \/ k = kc) by (intros k H; cbn in H; intuition congruence).
    intros a b Ha Hb. destruct (D a Ha) as [->|[->| ->]], (D b Hb) as [->|[->| ->]]; try reflexivity; discriminate.
Qed.

(** Two keys under one hash: the second store displaces the first, and neither is ever
    returned for the other. *)
Example C04_collision :
  option_map (fun p => map (option_map b_message) (map fst (snd p)))
    (run lruKey bytes matchesKey (fun _ => 7) (cache_new 2)
       [Add _ _ ka (blob_of ka 1); Add _ _ kb (blob_of kb 2); Get _ _ ka; Get _ _ kb])
  = Some [None; None; None; Some [2]].
Proof. vm_compute. reflexivity. Qed.
