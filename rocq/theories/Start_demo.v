(** A small configuration: a listener, a router, a blocklist, a cache and a resolver *)
From Verif Require Import Base Bytes Dns Net Cidr_spec Net_spec Router_spec.
From Verif Require ListCfg_model ModCfg_model CacheCfg_model CacheCfg_demo ResCfg_model ResCfg_demo LCfg_model LCfg_spec LCfg_demo Router_model.
From Verif Require Import Config_model Start_model Start_spec Start_proofs2 Start_proofs4 Start_proofs5.
Local Open Scope string_scope.

Definition S_w : world string string bytes :=
  World (fun f => if String.eqb f "a" then Some "x" else if String.eqb f "b" then Some "y" else None) (fun _ => None) (fun _ => ResCfg_demo.demo_w) LCfg_demo.X_addr (fun _ => true) (fun _ => true)
    (fun s => Some (fun _ _ => Some s)) (fun _ => None) (fun _ => None) (fun _ => None) (fun _ => None) (fun _ => true) (fun _ => true) (fun _ _ => true)
    (fun s => Some (fun x => has_prefix s x)) (fun s => if String.eqb s "MX" then Some 15%N else if String.eqb s "A" then Some 1%N else None)
    (LCfg_model.w_url LCfg_demo.X_w) (LCfg_model.w_ip LCfg_demo.X_w) (LCfg_model.w_udp LCfg_demo.X_w) (LCfg_model.w_pem LCfg_demo.X_w) (LCfg_model.w_load LCfg_demo.X_w) (LCfg_model.w_hex LCfg_demo.X_w) (LCfg_model.w_pair LCfg_demo.X_w).
Lemma S_parse : parse_ok (w_addr S_w).
Proof.
  intros s a. cbn. unfold LCfg_demo.X_addr. destruct (String.eqb_spec s "10.0.0.0") as [->|]; [|discriminate]. intros H. injection H as <-.
  split; [split; [repeat constructor|left; reflexivity]|]. split; [reflexivity|discriminate].
Qed.
Definition S_boot : ResCfg_model.settings := ResCfg_demo.demo "udp" "192.0.2.1" "" "" "" "" "" "" 0 "".
Definition S_mods (l : list string) (limit retry : string) : ModCfg_model.settings :=
  ModCfg_model.Settings l [] "" [] 0 0 0 0 "" "" 0 [] None false false 0 [] [] [] 0 0 "" false 0 0 0 0 limit 0 false 0 0 retry [].
Definition S_lists (block : list string) (resolver : string) : ListCfg_model.group := ListCfg_model.Group "" "" 0 block "domain" [] 0 resolver [] "" [] 0 "" "" false false false 0 "".
Definition S_caches (b : option CacheCfg_model.backend) : CacheCfg_model.settings := CacheCfg_demo.demo_cache 5 [] "" "" 0 0 b.
Definition S_cache (b : option CacheCfg_model.backend) (l : list string) : group := Group "cache" (S_lists [] "") (S_mods l "" "") (S_caches b).
Definition S_block (l : list string) (resolver : string) : group := Group "blocklist-v2" (S_lists ["bad.example"] resolver) (S_mods l "" "") (S_caches None).
Definition S_route (type resolver : string) : route := Route type [] "" "" "" "" [] "" "" false "" resolver "" "".
Definition S_listener (protocol resolver : string) : string * LCfg_model.settings := (protocol, LCfg_demo.X_l "10.0.0.1" protocol 4 "" resolver "" "" "" "").
Definition S_memory := CacheCfg_demo.demo_backend "memory".
Definition S_p (groups : list (string * group)) (routers : list (string * list route)) (l : list (string * LCfg_model.settings)) : program :=
  Program S_boot [("up", ResCfg_demo.demo "dot" "dns.example" "" "192.0.2.7" "" "" "" "" 0 ""); ("other", ResCfg_demo.demo "tcp" "192.0.2.7" "" "" "" "" "" "" 0 "")] groups routers l.
Definition S_good : program :=
  S_p [("cache", S_cache (Some S_memory) ["up"]); ("block", S_block ["cache"] "other")] [("router", [S_route "MX" "up"; S_route "" "block"])] [S_listener "udp" "router"; S_listener "dot" "bootstrap-resolver"].
(** In the order in which the settings are *)
Definition S_edges (p : program) : list edge := flat_map edges_of (vertices p).
Definition S_run (p : program) : option (list string * list string * nat) :=
  match begin string string bytes S_w (fun _ l => rev l) (fun _ => Some [1]%N) p (S_edges p) with Started _ _ _ m ls oc => Some (map fst m, oc, length ls) | _ => None end.
(** What the element of a name can ask *)
Definition S_held (p : program) (id : string) : option (list string) :=
  match begin string string bytes S_w (fun _ l => l) (fun _ => Some [1]%N) p (S_edges p) with Started _ _ _ m ls oc => option_map (fun x => map id_of (holds x)) (get id m) | _ => None end.
Example S_demo : S_run S_good = Some (["router"; "block"; "cache"; "up"; "other"; "bootstrap-resolver"], ["cache"], 2%nat).
Proof. vm_compute. reflexivity. Qed.
