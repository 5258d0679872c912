(** C07: cache lifetime selection. *)
From Verif Require Import Base Bytes Dns Net Blob_model Blob_spec Lru_model Cache_model Cache_spec Cache_proofs Cache_proofs5 Cache_demo.
Open Scope N_scope.

(** Whether and until when an answer is kept. *)
Theorem C07_lifetime :
  forall o now a, ttls_ok a -> m_tc a = false ->
    match lifetime o a, storeInCache o now a with
    | Some n, Some m => mt_timestamp m = Some now /\ mt_expiry m = Some (now + Z.of_N n * a_second)%Z
    | None, None => True
    | _, _ => False
    end.
Proof. exact lifetime_exact. Qed.
Print Assumptions C07_lifetime.

(** Truncated answers leave the cache unchanged. *)
Theorem C07_truncated_not_cached :
  forall ipString pack hash o q now a mn c, m_tc a = true ->
    resolve_finish ipString pack hash o q now (Ans a) c = Some (c, Ans a) /\
    prefetch_done ipString pack hash o q mn now (Ans a) c = Some c.
Proof. exact truncated_not_stored. Qed.
Print Assumptions C07_truncated_not_cached.

(** Except for SERVFAIL the lifetime is at most the TTL of every record. *)
Theorem C07_lifetime_within_ttl :
  forall o a n r, opts_ok o -> ttls_ok a -> m_rcode a <> RcodeServerFailure ->
    lifetime o a = Some n -> In r (records a) -> n <= rr_ttl r.
Proof. exact lifetime_le_ttl. Qed.
Print Assumptions C07_lifetime_within_ttl.

(** A configured maximum caps the lifetime. *)
Theorem C07_rcode_maximum :
  forall o a n m, lifetime o a = Some n -> o_rcodemax o (m_rcode a) = Some m -> n <= m.
Proof. exact lifetime_capped. Qed.
Print Assumptions C07_rcode_maximum.

Example C07_smallest : lifetime opts (good_answer "a.") = Some 20 /\ ttls_ok (good_answer "a.").
Proof. split; [reflexivity|]. repeat constructor; vm_compute; congruence. Qed.
Example C07_no_records : lifetime opts (set_answer [] (good_answer "a.")) = Some 60.
Proof. reflexivity. Qed.
Example C07_capped : lifetime (Options 60 (fun rc => if rc =? 3 then Some 9 else None) true "" 0 0) (nx_answer "a.") = Some 9.
Proof. reflexivity. Qed.
Example C07_truncated : lifetime opts (set_tc true (good_answer "a.")) = None.
Proof. reflexivity. Qed.
(** Corner: a SERVFAIL is kept for the negative TTL even with a record of smaller TTL (it is not
    served after that, see C06, but it occupies the entry). *)
Example C07_servfail : lifetime opts (set_rcode_field 2 (good_answer "a.")) = Some 60.
Proof. reflexivity. Qed.
(** Corner: records whose TTL is 2^32-1 count as no records. *)
Example C07_max_ttl : lifetime opts (set_answer [a_rr "a." 4294967295 1] (good_answer "a.")) = Some 60.
Proof. reflexivity. Qed.
