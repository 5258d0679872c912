(** C36: the loaders of lists keep the last good list. *)
From Verif Require Import Base Bytes Loader_model Loader_spec Loader_proofs.
Local Open Scope N_scope.

(** What is read as a list is all the lines of a source that can be read to its end, and no other source is read as a list. *)
Theorem C36_lines : forall s rs, reads s rs <-> read_rules s = (rs, false).
Proof. exact reads_iff. Qed.
Print Assumptions C36_lines.
(** After any history of attempts: with allow-failure the list is the most recent one that could be obtained, and no error; without it
    the list that was obtained, or an error. *)
Theorem C36_history : forall o ws k w x outs, length outs = k -> nth_error ws k = Some w ->
  (forall j wj xj, nth_error ws j = Some wj -> nth_error (outs ++ [x]) j = Some xj -> outcome o (Nat.eqb j 0) wj xj) ->
  exists r ev, nth_error (loads o (newHTTPLoader o) ws) k = Some (r, ev) /\
    if allowFailure o then r = (latest (outs ++ [x]) [], false) else match x with Some rs => r = (rs, false) | None => snd r = true end.
Proof. exact history_new. Qed.
Print Assumptions C36_history.
(** Local files *)
Theorem C36_file : forall allow fs k f x outs, length outs = k -> nth_error fs k = Some f ->
  (forall j fj xj, nth_error fs j = Some fj -> nth_error (outs ++ [x]) j = Some xj -> file_outcome fj xj) ->
  exists r, nth_error (file_loads allow [] fs) k = Some r /\ if allow then r = (latest (outs ++ [x]) [], false) else match x with Some rs => r = (rs, false) | None => snd r = true end.
Proof. exact file_history_new. Qed.
Print Assumptions C36_file.
(** The cache file is read by the first load only, *)
Theorem C36_cache_read : forall o ws k r ev, nth_error (loads o (newHTTPLoader o) ws) k = Some (r, ev) -> In ReadCache ev <-> k = O /\ cacheDir o = true.
Proof. exact reads_cache. Qed.
Print Assumptions C36_cache_read.
(** and is replaced after each complete download, by the downloaded list, and at no other time. *)
Theorem C36_cache_write : forall o ws k r ev w d, nth_error ws k = Some w -> nth_error (loads o (newHTTPLoader o) ws) k = Some (r, ev) ->
  In (WriteCache d) ev <-> exists rules, cacheDir o = true /\ w_write w = true /\ (forall rs, ~ from_cache o (Nat.eqb k 0) w rs) /\ from_server w rules /\ d = cache_data rules /\ r = (rules, false).
Proof. exact writes_cache. Qed.
Print Assumptions C36_cache_write.
(** After a restart the first load yields the list that was written, *)
Theorem C36_restart : forall o ws k rs err ev d w tog, nth_error (loads o (newHTTPLoader o) ws) k = Some ((rs, err), ev) -> In (WriteCache d) ev -> clean rs ->
  w_disk w = Some (Source d false tog) -> fst (load o (newHTTPLoader o) w) = ((rs, false), [ReadCache]).
Proof. exact restart_load. Qed.
Print Assumptions C36_restart.
(** but not if a rule ends with a carriage return. *)
Theorem C36_restart_refuted : exists o w w' rs, fst (load o (newHTTPLoader o) w) = ((rs, false), [ReadCache; Request; WriteCache (cache_data rs)]) /\
  w_disk w' = Some (Source (cache_data rs) false false) /\ fst (fst (fst (load o (newHTTPLoader o) w'))) <> rs.
Proof. exact restart_refuted. Qed.
Print Assumptions C36_restart_refuted.

(** A download, a failed one (status 500), one that breaks off, one that is complete *)
Definition t_ok (d : list N) : world := World None (Some (200, Source d false false)) true.
Definition t_ws : list world := [t_ok [97; 10; 98]; World None (Some (500, Source [] false false)) true; World None (Some (200, Source [99; 10] true false)) true; t_ok [100; 13; 10]].
Example demo_allow : map fst (loads (Options true true) (newHTTPLoader (Options true true)) t_ws) = [([[97]; [98]], false); ([[97]; [98]], false); ([[97]; [98]], false); ([[100]], false)].
Proof. vm_compute. reflexivity. Qed.
Example demo_refuse : map (fun x => snd (fst x)) (loads (Options true false) (newHTTPLoader (Options true false)) t_ws) = [false; true; true; false].
Proof. vm_compute. reflexivity. Qed.
Example demo_outcomes : forall j wj xj, nth_error t_ws j = Some wj -> nth_error [Some [[97]; [98]]; None; None; Some [[100]]] j = Some xj -> outcome (Options true true) (Nat.eqb j 0) wj xj.
Proof.
  assert (C : forall b d, from_cache (Options true true) b (t_ok d) = from_cache (Options true true) b (World None None true)) by reflexivity.
  assert (N : forall b h rs, ~ from_cache (Options true true) b (World None h true) rs) by (intros b h rs (_ & _ & s & X & _); discriminate X).
  intros [|[|[|[|[|j]]]]] wj xj E1 E2; try discriminate E1; injection E1 as <-; injection E2 as <-.
  - right. split; [apply N|]. exists 200, (Source [97; 10; 98] false false). split; [reflexivity|]. split; [split; discriminate|]. apply C36_lines. vm_compute. reflexivity.
  - intros rs [X|[_ (st & b & [= <- <-] & R & _)]]; [exact (N _ _ _ X)|]. destruct R as [_ R]. apply R. reflexivity.
  - intros rs [X|[_ (st & b & [= <- <-] & _ & R)]]; [exact (N _ _ _ X)|]. destruct R as [R _]. discriminate R.
  - right. split; [apply N|]. exists 200, (Source [100; 13; 10] false false). split; [reflexivity|]. split; [split; discriminate|]. apply C36_lines. vm_compute. reflexivity.
Qed.
Example demo_restart : fst (load (Options true true) (newHTTPLoader (Options true true)) (World (Some (Source (cache_data [[97]; [98]]) false false)) None true)) = (([[97]; [98]], false), [ReadCache]).
Proof. vm_compute. reflexivity. Qed.
