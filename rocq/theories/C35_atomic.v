(** C35: atomic replacement of files. *)
From Verif Require Import Base Bytes AtomicFile_model AtomicFile_spec AtomicFile_proofs.
From Coq Require Import ZArith.
Local Open Scope N_scope.

(** Any number of calls side by side, temporary files removed by others at any time, any call failing or not, a stop at any point: every
    file that is not a temporary one is as it was at the start, or it is the complete result of a call that has succeeded, with the
    permissions it had before. *)
Theorem C35_atomic : forall size ws f0, quiet f0 -> (forall w, In w ws -> temporary (w_target w) = false) ->
  forall s f p, steps size ws (start ws f0) s -> crash (s_fs s) f -> temporary p = false ->
  file f p = file f0 p \/ result_of ws (s_pcs s) f0 p (file f p).
Proof. exact atomic. Qed.
Print Assumptions C35_atomic.
(** Calls that have failed, or have not come to their end, have left the file alone. *)
Theorem C35_error : forall size ws f0, quiet f0 -> (forall w, In w ws -> temporary (w_target w) = false) ->
  forall s f p, steps size ws (start ws f0) s -> crash (s_fs s) f -> temporary p = false ->
  (forall k w c, nth_error ws k = Some w -> w_target w = p -> nth_error (s_pcs s) k = Some c -> ~ committed c) -> file f p = file f0 p.
Proof. exact error_keeps. Qed.
Print Assumptions C35_error.
(** After a success the file is the result of a call that has succeeded. *)
Theorem C35_success : forall size ws f0, quiet f0 -> (forall w, In w ws -> temporary (w_target w) = false) ->
  forall s k w c, steps size ws (start ws f0) s -> nth_error ws k = Some w -> nth_error (s_pcs s) k = Some c -> committed c ->
  result_of ws (s_pcs s) f0 (w_target w) (file (s_fs s) (w_target w)).
Proof. exact success. Qed.
Print Assumptions C35_success.
(** A call can succeed, whatever it writes in whatever pieces. *)
Theorem C35_completes : forall size w f0, quiet f0 -> temporary (w_target w) = false -> w_fails w = false ->
  exists f, steps size [w] (start [w] f0) (Sys f [Done false None]) /\ file f (w_target w) = Some (perm f0 (w_target w), List.concat (w_chunks w)).
Proof. exact completes. Qed.
Print Assumptions C35_completes.
(** Once the calls are over and could remove their temporary files, there are no new ones. *)
Theorem C35_no_temp : forall size ws f0, quiet f0 -> (forall w, In w ws -> temporary (w_target w) = false) ->
  forall s p, steps size ws (start ws f0) s -> temporary p = true -> Forall (fun c => exists e, c = Done e None) (s_pcs s) -> file f0 p = None -> file (s_fs s) p = None.
Proof. exact no_leftovers. Qed.
Print Assumptions C35_no_temp.
(** The removal of stale files takes the regular files with the prefix that are at least an hour old, and none in the working directory. *)
Theorem C35_clean : forall d es now x, In x (removeStaleTempFiles d es now) <->
  d <> ""%string /\ d <> "."%string /\ exists l e t, es = Some l /\ In e l /\ d_name e = x /\ d_regular e = true /\ String.prefix ".routedns-tmp-" x = true /\ d_mtime e = Some t /\ (t <= now - 3600000000000)%Z.
Proof. exact clean_exact. Qed.
Print Assumptions C35_clean.
(** The directory is not synced: a machine crash may undo a write that was reported as successful. *)
Theorem C35_durable_refuted : exists size w f0 s f, quiet f0 /\ temporary (w_target w) = false /\ steps size [w] (start [w] f0) s /\ s_pcs s = [Done false None] /\ crash (s_fs s) f /\ file f (w_target w) = None.
Proof. exact durable_refuted. Qed.
Print Assumptions C35_durable_refuted.

(** Two calls for one file with permissions rw-r--r--, interleaved; the first succeeds after the temporary file of the second was created, the second fails. *)
Definition t_file : path := ("/d", "cache")%string.
Definition t_fs : fs := FS [(t_file, O)] [Node 420 [7; 7] true] [] [].
Definition t_ws : list writer := [Writer t_file [[1; 2]; [3]; [4; 5; 6; 7]] false; Writer t_file [[9]] true].
Definition t1 : path := ("/d", ".routedns-tmp-1")%string.
Definition t2 : path := ("/d", ".routedns-tmp-2")%string.
Example demo_quiet : quiet t_fs.
Proof. split; [reflexivity|]. intros p i H. cbn in H. destruct (path_eqb t_file p); [injection H as <-; cbn; eauto|discriminate H]. Qed.
Example demo_targets : forall w, In w t_ws -> temporary (w_target w) = false.
Proof. intros w [<-|[<-|[]]]; reflexivity. Qed.
Example demo_run : exists s, steps 3 t_ws (start t_ws t_fs) s /\ s_pcs s = [Done false None; Done true None] /\ file (s_fs s) t_file = Some (420, [1; 2; 3; 4; 5; 6; 7]) /\ file (s_fs s) t1 = None /\ file (s_fs s) t2 = None.
Proof.
  assert (G : forall a b c, step 3 t_ws a b -> steps 3 t_ws b c -> steps 3 t_ws a c) by (intros a b c H; apply steps_trans; eapply steps_step; [apply steps_refl|exact H]).
  assert (A : forall f c f' c' x e, wstep 3 (Writer t_file [[1; 2]; [3]; [4; 5; 6; 7]] false) f c f' c' -> steps 3 t_ws (Sys f' [c'; x]) e -> steps 3 t_ws (Sys f [c; x]) e)
    by (intros f c f' c' x e H; apply G; exact (step_writer 3 t_ws 0 _ [] c [x] f f' c' eq_refl eq_refl H)).
  assert (B : forall f c f' c' x e, wstep 3 (Writer t_file [[9]] true) f c f' c' -> steps 3 t_ws (Sys f' [x; c']) e -> steps 3 t_ws (Sys f [x; c]) e)
    by (intros f c f' c' x e H; apply G; exact (step_writer 3 t_ws 1 _ [x] c [] f f' c' eq_refl eq_refl H)).
  eexists. split.
  - eapply A; [apply ws_create with (tmp := t1); [reflexivity|reflexivity|reflexivity|intros []]|]. eapply A; [eapply ws_stat; reflexivity|]. eapply A; [apply ws_chmod|].
    eapply B; [apply ws_create with (tmp := t2); [reflexivity|reflexivity|reflexivity|intros [H|[]]; discriminate H]|]. eapply A; [apply ws_buffer; cbn; lia|]. eapply A; [apply ws_buffer; cbn; lia|].
    eapply A; [apply ws_full; [cbn; lia|discriminate]|]. eapply B; [eapply ws_stat; reflexivity|]. eapply A; [apply ws_direct; cbn; lia|]. eapply A; [apply ws_written; reflexivity|]. eapply A; [apply ws_flush_empty|].
    eapply A; [apply ws_sync|]. eapply A; [apply ws_close|]. eapply A; [eapply ws_rename; reflexivity|]. eapply B; [apply ws_chmod|]. eapply B; [apply ws_buffer; cbn; lia|]. eapply B; [apply ws_callback; reflexivity|].
    eapply B; [apply ws_remove|]. eapply A; [apply ws_remove|]. apply steps_refl.
  - repeat split; reflexivity.
Qed.
Example demo_clean : removeStaleTempFiles "/d" (Some [Entry "cache" true (Some 0%Z); Entry ".routedns-tmp-1" true (Some 0%Z); Entry ".routedns-tmp-2" true (Some 3600000000000%Z); Entry ".routedns-tmp-3" false (Some 0%Z)]) 3700000000000 = [".routedns-tmp-1"%string].
Proof. reflexivity. Qed.
