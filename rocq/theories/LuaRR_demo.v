(** Records for the examples of C73. *)
From Verif Require Import Base Bytes Net LuaVal_model LuaRR_model LuaRR_spec LuaVal_proofs.
Local Open Scope nat_scope.

Definition mx : list ftype := [FHdr; FPlain "Preference" KU16; FPlain "Mx" KStr].
Definition eui64 : list ftype := [FHdr; FPlain "Address" KU64].
Definition caa : list ftype := [FHdr; FPlain "Flag" KU8; FPlain "Tag" KStr; FPlain "Value" KStr].
Definition a : list ftype := [FHdr; FPlain "A" KIP].
Definition https : list ftype := [FStruct [FHdr; FPlain "Priority" KU16; FPlain "Target" KStr; FPlain "Value" KOpaque]].
Ltac type_ok_flat := left; split; [repeat constructor|split; [repeat constructor; cbn; intuition discriminate|cbn; intuition (subst; try discriminate)]].
Lemma mx_ok : type_ok mx.
Proof. type_ok_flat. Qed.
Lemma eui64_ok : type_ok eui64.
Proof. type_ok_flat. Qed.
Lemma caa_ok : type_ok caa.
Proof. type_ok_flat. Qed.
Lemma a_ok : type_ok a.
Proof. type_ok_flat. Qed.
Lemma https_ok : type_ok https.
Proof.
  right. exists [FHdr; FPlain "Priority" KU16; FPlain "Target" KStr; FPlain "Value" KOpaque]. split; [reflexivity|]. split; [repeat constructor|].
  split; [repeat constructor; cbn; intuition discriminate|cbn; intuition (subst; try discriminate)].
Qed.
Definition types (n : N) : option (list ftype) :=
  if (n =? 1)%N then Some a else if (n =? 15)%N then Some mx else if (n =? 65)%N then Some https else if (n =? 109)%N then Some eui64 else if (n =? 257)%N then Some caa else None.
Lemma types_ok n t : types n = Some t -> type_ok t.
Proof.
  unfold types. repeat (match goal with |- context [(n =? ?x)%N] => destruct (n =? x)%N end); intros E; try discriminate; injection E as <-;
  [apply a_ok|apply mx_ok|apply https_ok|apply eui64_ok|apply caa_ok].
Qed.
Definition mx_record : rr := RR (Hdr "example.com." 15 1 300 20) mx [VHdr; VU16 10; VStr "mail.example.com."].
Definition https_record : rr := RR (Hdr "example.com." 65 1 300 20) https [VStruct [VHdr; VU16 1; VStr "svc.example.com."; VOpaque 0]].
Definition eui64_record : rr := RR (Hdr "example.com." 109 1 300 8) eui64 [VHdr; VU64 (2 ^ 53 + 1)].
Definition caa_record : rr := RR (Hdr "example.com." 257 1 300 8) caa [VHdr; VU8 128; VStr "issue"; VStr "ca.example.net"].
Ltac record_ok_flat H := split; [exact H|]; split; [left; repeat constructor|cbn; repeat split; reflexivity].
Lemma mx_record_ok : record_ok mx_record.
Proof. record_ok_flat mx_ok. Qed.
Lemma eui64_record_ok : record_ok eui64_record.
Proof. record_ok_flat eui64_ok. Qed.
Lemma caa_record_ok : record_ok caa_record.
Proof. record_ok_flat caa_ok. Qed.
Lemma https_record_ok : record_ok https_record.
Proof.
  split; [exact https_ok|]. split; [|cbn; repeat split; reflexivity]. right. eexists _, _. split; [reflexivity|]. split; [reflexivity|]. repeat constructor.
Qed.

Lemma u64_lost far ipString parseIP : exists v r', get ipString eui64_record "address" = Some v /\ newindex far parseIP eui64_record "address" v = (r', true) /\
  fields r' = [("Address"%string, KU64, VU64 (2 ^ 53))].
Proof. eexists _, _. split; [reflexivity|]. split; vm_compute; reflexivity. Qed.
Lemma wrapped far parseIP : exists r', newindex far parseIP caa_record "flag" (LNum (Fin 257 0)) = (r', true) /\
  fields r' = [("Flag"%string, KU8, VU8 1); ("Tag"%string, KStr, VStr "issue"); ("Value"%string, KStr, VStr "ca.example.net")].
Proof. eexists. split; vm_compute; reflexivity. Qed.
(** Made in two orders *)
Definition entries : list (lval * lval) :=
  [(LStr "rtype", LNum (Fin 65 0)); (LStr "name", LStr "example.com."); (LStr "class", LNum (Fin 1 0)); (LStr "priority", LNum (Fin 1 1)); (LStr "target", LStr "svc.")].
Lemma made far parseIP : new far parseIP types entries = Some (RR (Hdr "example.com." 65 1 0 0) https [VStruct [VHdr; VU16 2; VStr "svc."; VOpaque 0]]).
Proof. vm_compute. reflexivity. Qed.
Lemma entries_keys : NoDup (map fst entries).
Proof. repeat constructor; cbn; intuition discriminate. Qed.
Lemma entries_ok parseIP k v : In (k, v) entries -> exists s, k = LStr s /\ (s = "rtype"%string \/ assignable parseIP https s v).
Proof.
  intros I. cbn in I. destruct I as [I|[I|[I|[I|[I|[]]]]]]; injection I as <- <-; eexists; (split; [reflexivity|]).
  - left. reflexivity.
  - right. constructor.
  - right. constructor.
  - right. apply (assignable_field parseIP https "Priority" KU16); [cbn; tauto|constructor].
  - right. apply (assignable_field parseIP https "Target" KStr); [cbn; tauto|constructor].
Qed.
(** Addresses in a form that is read as it was printed *)
Definition raw_ip (ip : bytes) : string := string_of_list_ascii (map ascii_of_N ip).
Definition parse_raw (s : string) : option bytes := Some (map N_of_ascii (list_ascii_of_string s)).
Lemma raw_text : ip_text raw_ip parse_raw.
Proof.
  intros ip L O. eexists. split; [reflexivity|]. left. unfold raw_ip. rewrite list_ascii_of_string_of_list_ascii, map_map. clear L.
  induction O as [|b ip B O IH]; [reflexivity|]. cbn [map]. rewrite N_ascii_embedding by exact B. congruence.
Qed.
