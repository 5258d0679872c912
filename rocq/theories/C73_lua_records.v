(** C73: records in Lua. *)
From Coq Require Import Permutation.
From Verif Require Import Base Bytes Net LuaVal_model LuaRR_model LuaRR_spec LuaRR_proofs LuaRR_proofs2 LuaRR_demo LuaVal_proofs.
Local Open Scope nat_scope.

(** Every field that a script may read is there under its name in lower case, with its value; integers exactly, of those of 64 bits the
    large ones approximately. *)
Theorem C73_read : forall ipString r g k v, record_ok r -> In (g, k, v) (fields r) -> k <> KOpaque -> exists lv, get ipString r (lower g) = Some lv /\ shows ipString v lv.
Proof. exact read_field. Qed.
Print Assumptions C73_read.
Theorem C73_header : forall ipString r, record_ok r -> get ipString r "name" = Some (LStr (h_name (rr_hdr r))) /\
  (exists x, get ipString r "rtype" = Some (LNum x) /\ denotes x (Z.of_N (h_type (rr_hdr r)))) /\
  (exists x, get ipString r "class" = Some (LNum x) /\ denotes x (Z.of_N (h_class (rr_hdr r)))) /\
  (exists x, get ipString r "ttl" = Some (LNum x) /\ denotes x (Z.of_N (h_ttl (rr_hdr r)))) /\
  (exists x, get ipString r "rdlength" = Some (LNum x) /\ denotes x (Z.of_N (h_rdlen (rr_hdr r)))).
Proof. exact read_header. Qed.
Print Assumptions C73_header.
(** Reading anything else is an error. *)
Theorem C73_unknown : forall ipString r name, record_ok r ->
  (get ipString r name = None <-> ~ In name header_names /\ forall g k v, In (g, k, v) (fields r) -> lower g = name -> k = KOpaque).
Proof. exact read_none. Qed.
Print Assumptions C73_unknown.
(** An assignment is without error exactly if the field may be written and the value has its type, or if the name is empty. *)
Theorem C73_accepts : forall far parseIP r name v, record_ok r ->
  (snd (newindex far parseIP r name v) = true <-> name = ""%string \/ assignable parseIP (rr_type r) name v).
Proof. exact newindex_iff. Qed.
Print Assumptions C73_accepts.
(** It then changes this field and nothing else (an empty name: nothing), so never the type of a record. *)
Theorem C73_write : forall far parseIP r name v r', record_ok r -> newindex far parseIP r name v = (r', true) ->
  (name = ""%string /\ r' = r \/ assigned parseIP name v r r') /\ record_ok r'.
Proof. exact newindex_assigned. Qed.
Print Assumptions C73_write.
(** With an error the record is as it was. *)
Theorem C73_refused : forall far parseIP r name v r', newindex far parseIP r name v = (r', false) -> r' = r.
Proof. exact newindex_refused. Qed.
Print Assumptions C73_refused.
(** What a script wrote it reads back, if the field can hold the value. *)
Theorem C73_back : forall far ipString parseIP r name v, record_ok r -> precise ipString parseIP (fields r) name v ->
  exists r' v', newindex far parseIP r name v = (r', true) /\ get ipString r' name = Some v' /\ alike v v'.
Proof. exact precise_back. Qed.
Print Assumptions C73_back.
(** To write what was read changes nothing, ... *)
Theorem C73_self : forall far ipString parseIP r name v, ip_text ipString parseIP -> record_ok r -> get ipString r name = Some v ->
  name <> "rtype"%string -> name <> "rdlength"%string -> (forall g k x, In (g, k, x) (fields r) -> lower g = name -> lossless x) ->
  exists r', newindex far parseIP r name v = (r', true) /\ same_record r r'.
Proof. exact self. Qed.
Print Assumptions C73_self.
(** ... apart from integers beyond 2^53, such as the address of an EUI64 record. *)
Theorem C73_u64_refuted : forall far ipString parseIP, exists v r', get ipString eui64_record "address" = Some v /\ newindex far parseIP eui64_record "address" v = (r', true) /\
  fields r' = [("Address"%string, KU64, VU64 (2 ^ 53))].
Proof. exact u64_lost. Qed.
Print Assumptions C73_u64_refuted.
(** Numbers that are too large for a field are not an error: 257 becomes 1. *)
Theorem C73_wrap_refuted : forall far parseIP, exists r', newindex far parseIP caa_record "flag" (LNum (Fin 257 0)) = (r', true) /\
  fields r' = [("Flag"%string, KU8, VU8 1); ("Tag"%string, KStr, VStr "issue"); ("Value"%string, KStr, VStr "ca.example.net")].
Proof. exact wrapped. Qed.
Print Assumptions C73_wrap_refuted.
(** A record made from a table is of the type that the table says, has the values of the table, and zero (also as class) in every other field. *)
Theorem C73_new : forall far parseIP typeToRR entries r, (forall n t, typeToRR n = Some t -> type_ok t) -> NoDup (map fst entries) -> new far parseIP typeToRR entries = Some r ->
  record_ok r /\ h_rdlen (rr_hdr r) = 0%N /\
  (exists x, In (LStr "rtype", LNum x) entries /\ stores 16 x (h_type (rr_hdr r)) /\ typeToRR (h_type (rr_hdr r)) = Some (rr_type r)) /\
  (forall k v, In (k, v) entries -> exists s, k = LStr s /\ (s = "rtype"%string \/ assignable parseIP (rr_type r) s v /\ holds parseIP r s v)) /\
  ((forall v, ~ In (LStr "name", v) entries) -> h_name (rr_hdr r) = ""%string) /\ ((forall v, ~ In (LStr "class", v) entries) -> h_class (rr_hdr r) = 0%N) /\
  ((forall v, ~ In (LStr "ttl", v) entries) -> h_ttl (rr_hdr r) = 0%N) /\
  forall g k x, In (g, k, x) (fields r) -> (forall v, ~ In (LStr (lower g), v) entries) -> initial k x.
Proof. exact new_made. Qed.
Print Assumptions C73_new.
Theorem C73_new_accepts : forall far parseIP typeToRR entries x z t, (forall n t, typeToRR n = Some t -> type_ok t) -> NoDup (map fst entries) ->
  In (LStr "rtype", LNum x) entries -> denotes x z -> (0 <= z < 2 ^ 16)%Z -> typeToRR (Z.to_N z) = Some t ->
  (forall k v, In (k, v) entries -> exists s, k = LStr s /\ (s = "rtype"%string \/ assignable parseIP t s v)) -> exists r, new far parseIP typeToRR entries = Some r.
Proof. exact new_accepts. Qed.
Print Assumptions C73_new_accepts.
(** The order in which a table is walked through, which Lua leaves open, does not matter. *)
Theorem C73_new_order : forall far parseIP typeToRR l l', (forall n t, typeToRR n = Some t -> type_ok t) -> NoDup (map fst l) -> Permutation l l' ->
  new far parseIP typeToRR l = new far parseIP typeToRR l'.
Proof. exact new_perm. Qed.
Print Assumptions C73_new_order.

(** Hypotheses *)
Example records : record_ok mx_record /\ record_ok https_record /\ record_ok eui64_record /\ record_ok caa_record /\ (forall n t, types n = Some t -> type_ok t).
Proof. exact (conj mx_record_ok (conj https_record_ok (conj eui64_record_ok (conj caa_record_ok types_ok)))). Qed.
Example embedded : In ("Target"%string, KStr, VStr "svc.example.com.") (fields https_record) /\ forall ipString, get ipString https_record "target" = Some (LStr "svc.example.com.").
Proof. split; [cbn; tauto|reflexivity]. Qed.
Example precise_number : forall ipString parseIP, precise ipString parseIP (fields mx_record) "preference" (LNum (Fin 5 2)).
Proof.
  intros. apply (precise_field ipString parseIP (fields mx_record) "Preference" KU16 (VU16 10)); [cbn; tauto|]. constructor. exists 20%Z.
  split; [|split; reflexivity || discriminate]. exists 5%Z, 2%Z. split; [reflexivity|]. split; [reflexivity|discriminate].
Qed.
Example refused : forall far parseIP, newindex far parseIP mx_record "preference" (LStr "ten") = (mx_record, false) /\ newindex far parseIP mx_record "rtype" (LNum (Fin 1 0)) = (mx_record, false) /\
  newindex far parseIP mx_record "priority" (LNum (Fin 1 0)) = (mx_record, false).
Proof. repeat split. Qed.
Example ip_texts : ip_text raw_ip parse_raw.
Proof. exact raw_text. Qed.
Example table : NoDup (map fst entries) /\ (forall far parseIP, new far parseIP types entries = Some (RR (Hdr "example.com." 65 1 0 0) https [VStruct [VHdr; VU16 2; VStr "svc."; VOpaque 0]])) /\
  (forall parseIP k v, In (k, v) entries -> exists s, k = LStr s /\ (s = "rtype"%string \/ assignable parseIP https s v)).
Proof. exact (conj entries_keys (conj made entries_ok)). Qed.
