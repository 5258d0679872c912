(** C62: lists are replaced as a whole while queries are served. *)
From Verif Require Import Base Refresh_model Refresh_spec Refresh_proofs Refresh_proofs2.

(** The resolvers: field count and locking discipline *)
Definition blocklist_cfg : config := Config true false false.
Definition client_cfg : config := Config false true true.       (* also for response-blocklist-ip *)
Definition response_name_cfg : config := Config false false false.

(** Any number of fields, refresh loops and queries, any schedule: no query has a closed database in hand. The hypothesis holds for all the
    resolvers (examples below). *)
Theorem C62_open : forall c k n s, (snap c = true -> closes c = false) -> steps c (start k n) s -> forall q d, In q (s_queries s) -> uses q d -> ~ In d (s_closed s).
Proof. exact never_closed. Qed.
Print Assumptions C62_open.
(** A query is matched against the databases that were installed last before it got the lock, all of them from the same moment; if it
    keeps the lock, none was installed in the meantime. A reload that fails installs nothing. *)
Theorem C62_current : forall c k n s, (snap c = true -> closes c = false) -> steps c (start k n) s -> forall a i ds b, s_log s = a ++ Match i ds :: b ->
  exists b1 b2, b = b1 ++ Begin i :: b2 /\ ~ In (Begin i) b1 /\ ds = installed (seq 0 k) b2 /\ (snap c = false -> forall e, In e b1 -> ~ is_install e).
Proof. exact matches. Qed.
Print Assumptions C62_current.
(** Refreshes and queries never block each other for good: from every state, all queries can be matched and all loops get to sleep again,
    and every database that was loaded is installed. *)
Theorem C62_complete : forall c, (snap c = true -> closes c = false) -> forall k n s, steps c (start k n) s ->
  exists s', steps c s s' /\ Forall (eq Finished) (s_queries s') /\ Forall (eq Sleep) (s_loops s') /\
    (forall i, i < length (s_queries s') -> exists ds, In (Match i ds) (s_log s')) /\ (forall j d, nth_error (s_loops s) j = Some (Loaded d) -> In (Install j d) (s_log s')).
Proof. exact complete. Qed.
Print Assumptions C62_complete.
(** A list of several parts is reloaded in all parts or not at all. *)
Theorem C62_multi : forall A B (reload : A -> option B) l r, multi_reload reload l = Some r <-> Forall2 (fun a b => reload a = Some b) l r.
Proof. exact @multi_all. Qed.
Print Assumptions C62_multi.
(** Files of location databases are not always closed: without a successful reload the number of open ones grows without bound. *)
Theorem C62_leak_refuted : forall c k n m, leaks c = true -> exists s, steps c (start k n) s /\ s_log s = [] /\ s_closed s = [] /\ s_next s = k + m.
Proof. exact leak. Qed.
Print Assumptions C62_leak_refuted.

Example configs : (snap blocklist_cfg = true -> closes blocklist_cfg = false) /\ (snap client_cfg = true -> closes client_cfg = false) /\ (snap response_name_cfg = true -> closes response_name_cfg = false).
Proof. repeat split; try reflexivity; discriminate. Qed.
(** A query before, a reload that closes the first database, a query after *)
Example demo : exists s, steps client_cfg (start 1 2) s /\ s_log s = [Match 1 [1]; Begin 1; Install 0 1; Match 0 [0]; Begin 0] /\ s_closed s = [0] /\ s_queries s = [Finished; Finished].
Proof.
  assert (G : forall a b e, step client_cfg a b -> steps client_cfg b e -> steps client_cfg a e).
  { intros a b e H S. induction S as [|s s' s'' _ IH S2]; [eapply steps_step; [apply steps_refl|exact H]|]. eapply steps_step; [apply IH, H|exact S2]. }
  eexists. split.
  - cbn. eapply G; [apply (r_load client_cfg [0] 1 [] [] [])|]. eapply G; [apply (q_lock client_cfg [0] 2 [] [Loaded 1] [] [Start] []); repeat constructor; intros []|].
    eapply G; [apply (q_read client_cfg [0] 2 [] [Loaded 1] [] [] 0 [Start]); reflexivity|]. eapply G; [apply (q_match_locked client_cfg [0] 2 [] [Loaded 1] [] [0] [Start]); reflexivity|].
    eapply G; [apply (r_lock client_cfg [0] 2 [] [] 1 []); repeat constructor; intros []|]. eapply G; [apply (r_swap client_cfg [] 0 [] 2 [] [] 1 []); reflexivity|]. eapply G; [apply (r_unlock client_cfg [1] 2 [] [] 0 [])|].
    eapply G; [apply (r_close client_cfg [1] 2 [] [] 0 [])|]. eapply G; [apply (q_lock client_cfg [1] 2 [0] [Sleep] [Finished] []); repeat constructor; intros []|].
    eapply G; [apply (q_read client_cfg [1] 2 [0] [Sleep] [Finished] [] 1 []); reflexivity|]. eapply G; [apply (q_match_locked client_cfg [1] 2 [0] [Sleep] [Finished] [1] []); reflexivity|]. apply steps_refl.
  - repeat split.
Qed.
