(** Concrete settings for the examples beside C89, and what fails *)
From Verif Require Import Base Bytes Dns Lru_model Blob_model Cache_model Cache_spec Cache_demo CacheCfg_model CacheCfg_spec CacheCfg_proofs3.
From Verif Require Router_spec.
From Coq Require Import Permutation.
Local Open Scope N_scope.

Definition demo_w : world nat :=
  World nat (fun n => if String.eqb n "up" then Some 1%nat else None) (fun f => if String.eqb f "a.lua" then Some "return"%string else None) (fun f => negb (String.eqb f "/no")) (fun _ => true) (fun _ _ => true).
(** [demo_cache max shuffle flush trigger eligible backend] *)
Definition demo_cache (size : Z) (max : list (string * N)) (shuffle flush : string) (trigger eligible : N) (b : option backend) : settings :=
  Settings ["up"%string] 0 size 0 max shuffle true flush trigger eligible b 0 0 0 0 "" "" "" "" false false false "" "" "" "" 0 false [] "" false.
Definition demo_backend (type : string) : backend := Backend type 1 30 "/c" 10 "" "r:6379" "" "" 0 "p:" 0 (-1) 20 false.
Definition demo_unp := toy_unpack "a.com." "b.com.".
Definition demo_hist : list event := [EStore (query "a.com." 1) t0 (Ans (good_answer "a.com."))].
(** What is answered at [now] by the cache of the settings: the TTLs and the effect; None: nothing *)
Definition demo_ask (g : settings) (l : list event) (now : Z) (name : string) : option (option (list N * N * effect)) :=
  match made demo_w "cache" g with
  | None => None
  | Some e =>
      match cacheRuns nat e toy_ip toy_pack demo_unp hash7 l with
      | None => None
      | Some c => option_map (fun p => option_map (fun x => (map rr_ttl (m_answer (fst x)), m_rcode (fst x), snd x)) (snd p)) (cacheAsk nat e toy_ip demo_unp hash7 [] None (query name 1) now c)
      end
  end.
Lemma demo_hyps : Forall event_ok demo_hist /\ faithful toy_pack demo_unp demo_hist /\ query_ok (query "a.com." 1).
Proof.
  split; [repeat constructor; cbn; try discriminate; try (vm_compute; congruence)|].
  split; [|repeat constructor; cbn; try discriminate; vm_compute; congruence].
  intros e q t a w [<-|[]]; cbn [arrival]; try discriminate. intros [= <- <- <-] [= <-]. reflexivity.
Qed.

(** The same map, visited in two orders *)
Definition order1 : list (string * N) := [("0", 5); ("00", 15)]%string.
Definition order2 : list (string * N) := [("00", 15); ("0", 5)]%string.
Lemma order_matters : exists g g' now, Permutation (c_rcodeMax g) (c_rcodeMax g') /\ NoDup (map fst (c_rcodeMax g)) /\
  (exists x, demo_ask g demo_hist now "a.com." = Some (Some x)) /\ demo_ask g' demo_hist now "a.com." = Some None /\
  g' = demo_cache 5 (c_rcodeMax g') "" "" 0 0 None /\ g = demo_cache 5 (c_rcodeMax g) "" "" 0 0 None.
Proof.
  exists (demo_cache 5 order1 "" "" 0 0 None), (demo_cache 5 order2 "" "" 0 0 None), (t0 + 10000000000)%Z.
  split; [apply perm_swap|]. split; [repeat constructor; cbn; intuition discriminate|]. split; [eexists; vm_compute; reflexivity|]. split; [vm_compute; reflexivity|]. split; reflexivity.
Qed.
Lemma at_least : exists g now, c_eligible g = 20 /\ c_trigger g = 15 /\ ttl_of (good_answer "a.com.") 20 /\ small g /\ in_memory g /\
  exists l n, demo_ask g demo_hist now "a.com." = Some (Some (l, 0, FromCache)) /\ In n l /\ n < 15.
Proof.
  exists (demo_cache 5 [] "" "" 15 20 None), (t0 + 10000000000)%Z. split; [reflexivity|]. split; [reflexivity|]. split; [split; [reflexivity|discriminate]|].
  split; [split; [vm_compute; congruence|split; [intros k v []|vm_compute; congruence]]|]. split; [left; reflexivity|].
  exists [10; 20], 10. split; [vm_compute; reflexivity|]. split; [left; reflexivity|reflexivity].
Qed.
