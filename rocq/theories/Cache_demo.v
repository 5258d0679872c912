(** Concrete queries, answers and library functions for the examples beside the cache theorems. *)
From Verif Require Import Base Bytes Bytes_proofs Dns Net Blob_model Blob_spec Lru_model Cache_model Cache_spec.
From Coq Require Import ZifyBool ZifyNat ZifyN.
Open Scope N_scope.

(** A text form of addresses that meets [ip_text_ok] *)
Definition toy_ip (a : bytes) : string := String "x" (string_of_bytes (canon a)).

Lemma bytes_string_inv l : Forall (fun x => x < 256) l -> bytes_of_string (string_of_bytes l) = l.
Proof.
  intros H. unfold bytes_of_string, string_of_bytes. rewrite list_ascii_of_string_of_list_ascii, map_map.
  induction H; cbn [map]; [reflexivity|]. rewrite N_ascii_embedding by assumption. f_equal. assumption.
Qed.
Lemma canon_ok a : addr_ok a -> Forall (fun x => x < 256) (canon a) /\ (length (canon a) <= 16)%nat.
Proof.
  intros [L F]. unfold canon, to4. destruct (Nat.eqb_spec (length a) 4); [split; [assumption|lia]|].
  destruct (Nat.eqb_spec (length a) 16); [|split; [assumption|lia]]. destruct (list_eq_dec _ _ _); [|split; [assumption|lia]].
  split; [|rewrite skipn_length; lia]. rewrite <- (firstn_skipn 12 a) in F. apply Forall_app in F. apply F.
Qed.
Lemma string_of_bytes_len l : String.length (string_of_bytes l) = length l.
Proof. unfold string_of_bytes. induction l; cbn; congruence. Qed.
Lemma toy_ip_ok : ip_text_ok toy_ip.
Proof.
  split.
  - intros a H. destruct (canon_ok a H) as [_ L]. unfold toy_ip. split; [|discriminate]. cbn [String.length]. rewrite string_of_bytes_len. lia.
  - intros a b Ha Hb. unfold toy_ip. split; [|congruence]. intros E. injection E as E.
    rewrite <- (bytes_string_inv (canon a)), <- (bytes_string_inv (canon b)), E; [reflexivity|apply canon_ok, Hb|apply canon_ok, Ha].
Qed.

Definition query (name : string) (t : N) : msg := Msg 7 false 0 false false true false false false 0 [Q name t 1] [] [] [].
Definition a_rr (name : string) (ttl : N) (d : N) : rr := RR name TypeA 1 ttl (DA [10; 0; 0; d]).
(** An answer with two records, TTL 20 and 30 *)
Definition good_answer (name : string) : msg :=
  Msg 7 true 0 false false true true false false 0 [Q name 1 1] [a_rr name 20 1; a_rr name 30 2] [] [].
Definition nx_answer (name : string) : msg :=
  Msg 7 true 0 false false true true false false 3 [Q name 1 1] [] [RR "com." TypeSOA 1 60 (DOTHER [])] [].

(** Library functions that know these answers *)
Definition toy_pack (a : msg) : option bytes := if m_rcode a =? 3 then Some [2] else Some [1].
Definition toy_unpack (name nxname : string) (w : bytes) : option msg :=
  match w with [1] => Some (good_answer name) | [2] => Some (nx_answer nxname) | _ => None end.

Definition opts : options := Options 60 (fun _ => None) true "" 0 0.
Definition t0 : Z := 1000000000000%Z.
Definition hash7 (k : lruKey) : N := 7.
