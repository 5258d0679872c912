(** C39: the TTL modifier (ttl-modifier.go). *)
From Verif Require Import Base Bytes Dns Modifiers_model Modifiers_spec Modifiers_proofs Modifiers_proofs2.
Local Open Scope N_scope.

(** Without a selection every TTL is limited by itself; OPT records, order and other fields stay. *)
Theorem C39_limits intn lo hi a : lo <= 4294967295 -> hi <= 4294967295 -> small_ttls a ->
  exists a', ttl_resolve intn None lo hi (Ans a) = Ans a' /\ ttl_mapped (limited lo hi) a a'.
Proof. exact (ttl_none intn lo hi a). Qed.
Print Assumptions C39_limits.

(** With one, all TTLs are the limited value selected among those of the response. *)
Theorem C39_select intn s lo hi a : lo <= 4294967295 -> hi <= 4294967295 -> small_ttls a -> (forall n, 0 < n -> intn n < n) ->
  exists a', ttl_resolve intn (Some s) lo hi (Ans a) = Ans a' /\
    ((records a = [] /\ a' = a) \/
     exists v, (match s with
                | SelLowest => is_lowest (map rr_ttl (records a)) v
                | SelHighest => is_highest (map rr_ttl (records a)) v
                | SelAverage => is_average (map rr_ttl (records a)) v
                | SelFirst => is_first (map rr_ttl (records a)) v
                | SelLast => is_last (map rr_ttl (records a)) v
                | SelRandom => is_between lo hi v
                end) /\ ttl_mapped (fun _ => limited lo hi v) a a').
Proof. exact (ttl_some intn s lo hi a). Qed.
Print Assumptions C39_select.

(** Limited TTLs are between the limits. *)
Theorem C39_in_range lo hi t : lo <= hi -> hi <> 0 -> lo <= limited lo hi t <= hi.
Proof. exact (limited_range lo hi t). Qed.
Print Assumptions C39_in_range.

(** Errors and drops pass. *)
Theorem C39_other intn s lo hi : ttl_resolve intn s lo hi Drop = Drop /\ forall e, ttl_resolve intn s lo hi (Err e) = Err e.
Proof. exact (conj eq_refl (fun e => eq_refl)). Qed.
Print Assumptions C39_other.

Definition C39_a : msg :=
  set_extra [new_opt 1232 true []] (set_answer [RR "a." 1 1 10 (DA []); RR "b." 1 1 100 (DA []); RR "c." 1 1 5000 (DA [])] empty_msg).
Definition C39_view (r : result) : list N := match r with Ans a => map rr_ttl (m_answer a ++ m_extra a) | _ => [] end.
Example C39_ex : map (fun s => C39_view (ttl_resolve (fun n => n / 2) s 60 3600 (Ans C39_a)))
    [None; Some SelLowest; Some SelHighest; Some SelAverage; Some SelFirst; Some SelLast; Some SelRandom] =
  [[60;100;3600;32768]; [60;60;60;32768]; [3600;3600;3600;32768]; [1703;1703;1703;32768]; [60;60;60;32768]; [3600;3600;3600;32768]; [1830;1830;1830;32768]].
Proof. vm_compute. reflexivity. Qed.
Example C39_small : small_ttls C39_a.
Proof. repeat constructor; intros H; discriminate H. Qed.
