(** C77. Saving the cache while it is in use, at intervals and on closing, and restarts at any moment. *)
From Verif Require Import Base Bytes Dns Blob_model Lru_model Cache_model Cache_spec Cache_demo Save_model Save_spec Save_proofs Save_proofs2.
Local Open Scope nat_scope.

(** Whatever queries, saves and restarts do, in any interleaving: the file is what it was at first, or the whole cache as it was at one moment. *)
Theorem C77_snapshot : forall (A E R : Type) op records boot (a : A) f (s : state A R), reach (E := E) op records boot (start a f) s ->
  file s = f \/ exists m, reach op records boot (start a f) m /\ reach op records boot m s /\ snapshot_of records (file s) m.
Proof. exact (fun A E R => @snapshot A E R). Qed.
Print Assumptions C77_snapshot.
(** The file only ever changes to a later moment. *)
Theorem C77_newer : forall (A E R : Type) op records boot (a : A) f (s1 s2 : state A R), reach (E := E) op records boot (start a f) s1 -> reach op records boot s1 s2 -> file s2 = file s1 \/
  exists m2, reach op records boot m2 s2 /\ snapshot_of records (file s2) m2 /\
    (file s1 = f \/ exists m1, reach op records boot (start a f) m1 /\ reach op records boot m1 s1 /\ reach op records boot m1 m2 /\ snapshot_of records (file s1) m1).
Proof. exact (fun A E R => @newer A E R). Qed.
Print Assumptions C77_newer.
(** A save (that of Close, say) that returns without an error: from then on the file has the cache as it was at some moment after the call began. *)
Theorem C77_close : forall (A E R : Type) op records boot (a : A) f i (s1 s2 : state A R), reach (E := E) op records boot (start a f) s1 -> reach op records boot s1 s2 -> calls s1 i = WantSave -> calls s2 i = Done false ->
  exists m, reach op records boot s1 m /\ reach op records boot m s2 /\ snapshot_of records (file s2) m.
Proof. exact (fun A E R => @returned A E R). Qed.
Print Assumptions C77_close.
(** No deadlock: from anywhere a waiting save can get to its end with the file as the cache is now, and the lock on the cache can be released, without anything but saves going on. *)
Theorem C77_ends : forall (A E R : Type) op records boot (a : A) f i (s : state A R), reach (E := E) op records boot (start a f) s -> calls s i = WantSave ->
  exists s', reach op records boot s s' /\ calls s' i = Done false /\ cache s' = cache s /\ snapshot_of records (file s') s.
Proof. exact (fun A E R => @can_end A E R). Qed.
Print Assumptions C77_ends.
Theorem C77_unlocks : forall (A E R : Type) op records boot (a : A) f (s : state A R) k, reach (E := E) op records boot (start a f) s -> mu s = Some k -> exists s', reach op records boot s s' /\ mu s' = None /\ cache s' = cache s.
Proof. exact (fun A E R => @unlocks A E R). Qed.
Print Assumptions C77_unlocks.

(** The DNS cache, over any number of restarts at any moment, each with its own hash function and capacity, and with the file whole, cut short, damaged or gone: what it answers is what upstream gave to that question at some time, aged, and within its lifetime. *)
Theorem C77_restarts : forall ipString pack unpack o h cap t s q now r pf, ip_text_ok ipString -> opts_ok o ->
  run (mem_op ipString pack unpack o) mem_records (mem_boot unpack) (start (h, cache_new cap) None) t s -> Forall event_ok (events t) -> faithful pack unpack (events t) -> query_ok q ->
  peek ipString unpack (fst (cache s)) (snd (cache s)) q now = Some (r, pf) -> given o (events t) q now r.
Proof. exact (fun ipString pack unpack o h cap t s q now r pf Hi Ho => restarts ipString pack unpack o Hi Ho h cap t s q now r pf). Qed.
Print Assumptions C77_restarts.
(** A file is loaded up to where it is damaged. *)
Theorem C77_damaged : forall unpack hash cap recs rest, rest = [] \/ (exists junk, rest = None :: junk) ->
  loadFromFile unpack hash (Some (map Some recs ++ rest)) cap = loadFile unpack hash recs (cache_new cap).
Proof. exact damaged. Qed.
Print Assumptions C77_damaged.

(** Two saves: the first is in the middle of its records when the second begins; an entry comes in after the first has let go of the cache; the process ends before the second is done. *)
Definition C77_op (e : nat) (a b : list nat) : Prop := b = e :: a.
Definition C77_boot (f : option (list nat)) (a : list nat) : Prop := a = match f with Some l => l | None => [] end.
Example C77_ex_run : exists t s1 s2, run C77_op (fun a => a) C77_boot (start [2; 1] None) t s1 /\ calls s1 0 = Done false /\ calls s1 1 = Encode [3] /\ file s1 = Some [2; 1] /\ cache s1 = [3; 2; 1] /\
  step C77_op (fun a => a) C77_boot s1 LBoot s2 /\ cache s2 = [2; 1].
Proof.
  do 3 eexists. split.
  { eapply run_snoc with (l := LSave 1); [eapply run_snoc with (l := LSave 1); [eapply run_snoc with (l := LSave 1); [eapply run_snoc with (l := LSave 1); [
    eapply run_snoc with (l := LSave 0); [eapply run_snoc with (l := LSave 0); [eapply run_snoc with (l := LOp 3); [eapply run_snoc with (l := LSave 0); [eapply run_snoc with (l := LSave 0); [eapply run_snoc with (l := LSave 0); [
    eapply run_snoc with (l := LSave 1); [eapply run_snoc with (l := LSave 0); [eapply run_snoc with (l := LSave 0); [eapply run_snoc with (l := LSave 0); [eapply run_snoc with (l := LSave 0); [eapply run_snoc with (l := LSave 0); [apply run_nil|]
    |]|]|]|]|]|]|]|]|]|]|]|]|]|]|].
    - apply s_call with (i := 0). left. reflexivity.
    - apply s_save with (i := 0). reflexivity.
    - apply s_open with (i := 0). reflexivity.
    - apply s_lock with (i := 0). reflexivity.
    - eapply s_record with (i := 0); reflexivity.
    - apply s_call with (i := 1). left. reflexivity.
    - eapply s_record with (i := 0); reflexivity.
    - eapply s_encoded with (i := 0); reflexivity.
    - eapply s_finish with (i := 0); reflexivity.
    - apply s_op. reflexivity.
    - eapply s_rename with (i := 0); reflexivity.
    - eapply s_leave with (i := 0); reflexivity.
    - apply s_save with (i := 1). reflexivity.
    - apply s_open with (i := 1). reflexivity.
    - apply s_lock with (i := 1). reflexivity.
    - eapply s_record with (i := 1); reflexivity. }
  do 4 (split; [reflexivity|]). split; [apply s_boot; reflexivity|reflexivity].
Qed.
(** An answer is stored and saved; the next process, with another hash function and room for one entry, answers with it, aged by a second. *)
Definition C77_un := toy_unpack "a.com." "b.com.".
Definition C77_ev : event := EStore (query "a.com." 1) t0 (Ans (good_answer "a.com.")).
Definition C77_c1 : lru bytes := match exec toy_ip toy_pack C77_un hash7 opts (cache_new 0) C77_ev with Some c => c | None => cache_new 0 end.
Definition C77_c2 : lru bytes := match loadFile C77_un (fun _ => 3%N) (mem_records (hash7, C77_c1)) (cache_new 1) with Some c => c | None => cache_new 1 end.
Example C77_ex_restart : exists t s, run (mem_op toy_ip toy_pack C77_un opts) mem_records (mem_boot C77_un) (start (hash7, cache_new 0) None) t s /\ events t = [C77_ev] /\
  option_map (fun p => map rr_ttl (m_answer (fst p))) (peek toy_ip C77_un (fst (cache s)) (snd (cache s)) (query "a.com." 1) (t0 + 1000000000)%Z) = Some [19; 29]%N.
Proof.
  assert (E1 : exec toy_ip toy_pack C77_un hash7 opts (cache_new 0) C77_ev = Some C77_c1) by (unfold C77_c1; destruct (exec toy_ip toy_pack C77_un hash7 opts (cache_new 0) C77_ev) eqn:E; [reflexivity|vm_compute in E; discriminate]).
  set (s1 := State (hash7, C77_c1) None None None (fun _ => Idle) : state backend itemJSON).
  assert (H1 : run (mem_op toy_ip toy_pack C77_un opts) mem_records (mem_boot C77_un) (start (hash7, cache_new 0) None) [LOp C77_ev] s1).
  { apply (run_snoc _ _ _ _ _ _ _ [] (LOp C77_ev) (start (hash7, cache_new 0) None)); [apply run_nil|]. apply s_op. split; [reflexivity|exact E1]. }
  assert (LEN : exists r, mem_records (hash7, C77_c1) = [r]) by (eexists; vm_compute; reflexivity). destruct LEN as [r LEN].
  set (s2 := State (hash7, C77_c1) None (Some 0) (Some [r]) (set (set (set (set (set (set (set (set (fun _ => Idle) 0 WantSave) 0 Open) 0 WantMu) 0 (Encode [])) 0 (Encode [r])) 0 (Finish [r])) 0 (Rename [r])) 0 (Leave false)) : state backend itemJSON).
  assert (H2 : run (mem_op toy_ip toy_pack C77_un opts) mem_records (mem_boot C77_un) s1 ((((((([LSave 0] ++ [LSave 0]) ++ [LSave 0]) ++ [LSave 0]) ++ [LSave 0]) ++ [LSave 0]) ++ [LSave 0]) ++ [LSave 0]) s2).
  { eapply run_snoc; [eapply run_snoc; [eapply run_snoc; [eapply run_snoc; [eapply run_snoc; [eapply run_snoc; [eapply run_snoc; [apply (run_snoc _ _ _ _ _ _ _ [] (LSave 0) s1); [apply run_nil|]|]|]|]|]|]|]|].
    - apply s_call. left. reflexivity.
    - apply s_save. reflexivity.
    - apply s_open. reflexivity.
    - apply s_lock. reflexivity.
    - apply s_record with (d := []); [reflexivity|rewrite LEN; reflexivity].
    - apply s_encoded; [reflexivity|rewrite LEN; reflexivity].
    - apply s_finish. reflexivity.
    - apply s_rename. reflexivity. }
  assert (E2 : loadFile C77_un (fun _ => 3%N) [r] (cache_new 1) = Some C77_c2) by (unfold C77_c2; rewrite LEN; destruct (loadFile C77_un (fun _ => 3%N) [r] (cache_new 1)) eqn:E; [reflexivity|rewrite <- LEN in E; vm_compute in E; discriminate]).
  exists (([LOp C77_ev] ++ ((((((([LSave 0] ++ [LSave 0]) ++ [LSave 0]) ++ [LSave 0]) ++ [LSave 0]) ++ [LSave 0]) ++ [LSave 0]) ++ [LSave 0])) ++ [LBoot]), (State (fun _ => 3%N, C77_c2) None None (Some [r]) (fun _ => Idle)).
  split; [|split; [reflexivity|vm_compute; reflexivity]]. eapply run_snoc; [eapply run_app; [exact H1|exact H2]|]. apply s_boot. exists 1%Z, (Some (map Some [r] ++ [])). split; [rewrite C77_damaged by (left; reflexivity); exact E2|]. right. exists [r], 1, []. auto.
Qed.
Example C77_ex_ok : Forall event_ok [C77_ev] /\ faithful toy_pack C77_un [C77_ev] /\ ip_text_ok toy_ip /\ opts_ok opts /\ query_ok (query "a.com." 1).
Proof.
  split; [repeat constructor; cbn; try discriminate; try (vm_compute; congruence)|]. split; [intros e q t a w [<-|[]]; cbn [arrival]; try discriminate; intros [= <- <- <-] [= <-]; reflexivity|]. split; [exact toy_ip_ok|].
  split; [split; [vm_compute; congruence|discriminate]|]. repeat constructor; cbn; try discriminate; vm_compute; congruence.
Qed.
