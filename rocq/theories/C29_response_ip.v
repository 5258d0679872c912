(** C29: response blocklists for addresses (response-blocklist-ip.go). *)
From Verif Require Import Base Bytes Dns Cidr_spec Net_spec Modifiers_spec Lists_model Blocklist_model Blocklist_spec Blocklist_proofs.
Local Open Scope N_scope.

(** Without a blocklist-resolver no successful reply has a record the list objects to. *)
Theorem C29_clean resolve db inverted hasBlock t filter_ q ci calls m : hasBlock = false ->
  rip_resolve resolve db filter_ inverted hasBlock t q ci = (calls, Ans m) -> m_rcode m = 0 ->
  forall r, In r (records m) -> ~ objectionable (on_list db) inverted r.
Proof. exact (rip_clean resolve db inverted hasBlock t filter_ q ci calls m). Qed.
Print Assumptions C29_clean.

(** Without filtering: a successful response without such records passes unchanged; one with such
    records is replaced by the blocklist-resolver's or by NXDOMAIN. *)
Theorem C29_block resolve db inverted hasBlock t q ci a : resolve Upstream q ci = Ans a -> m_rcode a = 0 ->
  let out := rip_resolve resolve db false inverted hasBlock t q ci in
  ((forall r, In r (records a) -> ~ objectionable (on_list db) inverted r) -> out = ([(Upstream, q, ci)], Ans a)) /\
  ((exists r, In r (records a) /\ objectionable (on_list db) inverted r) ->
     if hasBlock then out = ([(Upstream, q, ci); (BlocklistResolver, q, ci)], resolve BlocklistResolver q ci)
     else exists m r ip, out = ([(Upstream, q, ci)], Ans m) /\ In r (records a) /\ objectionable (on_list db) inverted r /\ has_addr r ip /\
       reply q 3 [] (error_records (ede_of t) q (db ip)) m).
Proof. exact (rip_block_spec resolve db inverted hasBlock t q ci a). Qed.
Print Assumptions C29_block.

(** With filtering exactly these records are removed; if that leaves no answer the response is
    replaced. *)
Theorem C29_filter resolve db inverted hasBlock t q ci a an ns ex : resolve Upstream q ci = Ans a -> m_rcode a = 0 ->
  without (objectionable (on_list db) inverted) (m_answer a) an ->
  without (objectionable (on_list db) inverted) (m_ns a) ns ->
  without (objectionable (on_list db) inverted) (m_extra a) ex ->
  let out := rip_resolve resolve db true inverted hasBlock t q ci in
  (an <> [] -> out = ([(Upstream, q, ci)], Ans (set_extra ex (set_ns ns (set_answer an a))))) /\
  (an = [] -> if hasBlock then out = ([(Upstream, q, ci); (BlocklistResolver, q, ci)], resolve BlocklistResolver q ci)
     else exists m, out = ([(Upstream, q, ci)], Ans m) /\ reply q 3 [] [] m).
Proof. exact (rip_filter_spec resolve db inverted hasBlock t q ci a an ns ex). Qed.
Print Assumptions C29_filter.

(** Errors, drops and responses with other codes pass unchanged. *)
Theorem C29_other resolve db inverted hasBlock t filter_ q ci : (forall a, resolve Upstream q ci = Ans a -> m_rcode a <> 0) ->
  rip_resolve resolve db filter_ inverted hasBlock t q ci = ([(Upstream, q, ci)], resolve Upstream q ci).
Proof. exact (rip_other resolve db inverted hasBlock t filter_ q ci). Qed.
Print Assumptions C29_other.

Definition ex_q : msg := Msg 7 false 0 false false true false false false 0 [Q "a." 1 1] [] [] [].
Definition ex_ci : client := Client [1;2;3;4] "" "" "".
Definition ex_db (ip : bytes) : option (string * string) := match ip with 10 :: _ => Some ("l", "10.0.0.0/8")%string | _ => None end.
Definition ex_a (n : N) : rr := RR "a." 1 1 60 (DA [n;0;0;1]).
Definition ex_ans (rcode : N) (an ex : list rr) : msg := Msg 7 true 0 false false true true false false rcode [Q "a." 1 1] an [] ex.
Definition ex_up (m : msg) (w : target) (q : msg) (ci : client) : result := match w with BlocklistResolver => Drop | _ => Ans m end.
Definition ex_f (m : msg) filter_ inverted :=
  match snd (rip_resolve (ex_up m) ex_db filter_ inverted false None ex_q ex_ci) with Ans m => Some (m_rcode m, m_answer m, m_extra m) | _ => None end.
Example C29_ex :
  ex_f (ex_ans 0 [ex_a 10; ex_a 11] [ex_a 10]) true false = Some (0, [ex_a 11], []) /\
  ex_f (ex_ans 0 [ex_a 10; ex_a 11] [ex_a 10]) true true = Some (0, [ex_a 10], [ex_a 10]) /\
  ex_f (ex_ans 0 [ex_a 10] []) true false = Some (3, [], []) /\
  ex_f (ex_ans 0 [ex_a 11] [ex_a 10]) false false = Some (3, [], []) /\
  ex_f (ex_ans 0 [ex_a 11] []) false false = Some (0, [ex_a 11], []).
Proof. vm_compute. repeat split. Qed.
(** Responses with other codes are not looked at: a listed address passes in one with NXDOMAIN. *)
Example C29_rcode_refuted : ex_f (ex_ans 3 [ex_a 10] []) false false = Some (3, [ex_a 10], []).
Proof. reflexivity. Qed.
(** With filtering, a response with an empty answer section becomes NXDOMAIN although nothing was removed. *)
Example C29_nodata_refuted : ex_f (ex_ans 0 [] []) true false = Some (3, [], []).
Proof. reflexivity. Qed.
