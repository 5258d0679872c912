(** C30: response blocklists for names (response-blocklist-name.go). *)
From Verif Require Import Base Bytes Dns Cidr_spec Net_spec DomainDB_model Lists_model Blocklist_model Blocklist_spec Blocklist_proofs.
Local Open Scope N_scope.

(** A response without a record the list objects to passes unchanged, one with such a record in any
    section is replaced. [name_bad]: a text of the record is on the list (or off it if inverted). *)
Theorem C30_names resolve inverted hasBlock t kv ndb id : (forall s, ndb (text_query id s) <> None) ->
  forall q ci a, resolve Upstream q ci = Ans a ->
  let out := rname_resolve resolve kv ndb id inverted hasBlock t q ci in
  ((forall r, In r (records a) -> ~ name_bad inverted kv ndb id r) -> out = Some ([(Upstream, q, ci)], Ans a)) /\
  ((exists r, In r (records a) /\ name_bad inverted kv ndb id r) ->
     if hasBlock then out = Some ([(Upstream, q, ci); (BlocklistResolver, q, ci)], resolve BlocklistResolver q ci)
     else exists m r s x, out = Some ([(Upstream, q, ci)], Ans m) /\ In r (records a) /\ name_bad inverted kv ndb id r /\ text_of kv r s /\
       ndb (text_query id s) = Some x /\ reply q 3 [] (error_records (ede_of t) q (mr_match x)) m).
Proof. exact (rname_spec resolve inverted hasBlock t kv ndb id). Qed.
Print Assumptions C30_names.

(** Errors and drops pass unchanged. *)
Theorem C30_other resolve inverted hasBlock t kv ndb id q ci : (forall a, resolve Upstream q ci <> Ans a) ->
  rname_resolve resolve kv ndb id inverted hasBlock t q ci = Some ([(Upstream, q, ci)], resolve Upstream q ci).
Proof. exact (rname_other resolve inverted hasBlock t kv ndb id q ci). Qed.
Print Assumptions C30_other.

(** A list of domains as the database: "evil.com" *)
Definition ex_heap : heap := match newDomainDB false (OK ["evil.com"; ".bad.org"]%string) with OK h => h | _ => heap0 end.
Definition ex_db (q : msg) : option mres :=
  let (rule, ok) := domainMatch ex_heap (qName q) in Some (MRes [] [] (Some ("l"%string, rule)) ok).
Example C30_ex_total id s : ex_db (text_query id s) <> None.
Proof. unfold ex_db. destruct (domainMatch _ _). discriminate. Qed.
Definition ex_q : msg := Msg 7 false 0 false false true false false false 0 [Q "a." 1 1] [] [] [].
Definition ex_f (inverted : bool) (an ns : list rdata) :=
  let mk d := RR "a." 0 1 60 d in
  let a := Msg 7 true 0 false false true true false false 0 [Q "a." 1 1] (map mk an) (map mk ns) [] in
  option_map (fun r => match snd r with Ans m => Some (m_rcode m) | _ => None end)
    (rname_resolve (fun _ _ _ => Ans a) (fun _ => "alpn=h2"%string) ex_db 5 inverted false None ex_q (Client [] "" "" "")).
Example C30_ex :
  ex_f false [DA [1;2;3;4]; DCNAME "Evil.com."] [] = Some (Some 3) /\
  ex_f false [DA [1;2;3;4]] [DSOA "x.bad.org." "m." 1 1 1 1 1] = Some (Some 3) /\
  ex_f false [DMX 1 "good.com."; DTXT ["evil.com"; "x"]%string] [] = Some (Some 0) /\
  ex_f true [DCNAME "evil.com."] [] = Some (Some 0) /\
  ex_f true [DCNAME "evil.com."; DCNAME "good.com."] [] = Some (Some 3).
Proof. vm_compute. repeat split. Qed.
(** A listed domain as the target of a service record is blocked only if the record has no
    parameters: with them the text looked up is not a domain name. *)
Example C30_service_refuted : ex_f false [DHTTPS 1 "evil.com." []] [] = Some (Some 3) /\ ex_f false [DHTTPS 1 "evil.com." [1]] [] = Some (Some 0).
Proof. vm_compute. split; reflexivity. Qed.
