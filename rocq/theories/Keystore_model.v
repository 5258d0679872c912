(** dnssec/keystore.go: the store of trust anchors and validated keys. Times are in seconds. *)
From Verif Require Import Base Bytes Dns Name_model.
Open Scope N_scope.

(** The fields of *dns.DNSKEY, *dns.DS *)
Definition key_flags (r : rr) : option N := match rr_data r with DDNSKEY f _ _ _ => Some f | _ => None end.
Definition has_flags (f : N) (r : rr) : bool := match key_flags r with Some g => N.eqb g f | None => false end.

(** keystore.go:17-38 keystoreEntry, dnskeySet, dsSet; the map from canonical names, newest entry first *)
Record keyset := Keyset { k_zsk : list rr; k_ksk : list rr; k_expires : N }.
Record entry := Entry { e_keys : option keyset; e_ds : option (list rr * N) }.
Definition store := list (string * entry).
Fixpoint lookup (s : store) (name : string) : option entry :=
  match s with [] => None | (k, e) :: s' => if String.eqb k name then Some e else lookup s' name end.
Definition getItem (s : store) (name : string) : entry :=
  match lookup s (canonicalName name) with Some e => e | None => Entry None None end.

Definition MaxUint32 : N := 4294967295.
(** keystore.go:63-68 and 82-85: the smallest TTL *)
Definition min_ttl (rs : list rr) : N := fold_left (fun ttl r => if rr_ttl r <? ttl then rr_ttl r else ttl) rs MaxUint32.
(** keystore.go:47-73 addDS *)
Definition addDS (s : store) (now : N) (name : string) (dss : list rr) : store :=
  let item := getItem s name in
  let records := (match e_ds item with Some (rs, _) => rs | None => [] end) ++ dss in
  (canonicalName name, Entry (e_keys item) (Some (records, now + min_ttl records))) :: s.
(** keystore.go:75-99 addDNSKEY *)
Definition addDNSKEY (s : store) (now : N) (name : string) (keys : list rr) : store :=
  let keyset := Keyset (filter (has_flags 256) keys) (filter (has_flags 257) keys) (now + min_ttl keys) in
  (canonicalName name, Entry (Some keyset) (e_ds (getItem s name))) :: s.
(** keystore.go:101-115 getDNSKEY *)
Definition getDNSKEY (s : store) (now : N) (name : string) : list rr * list rr :=
  match e_keys (getItem s name) with
  | Some ks => if k_expires ks <? now then ([], []) else (k_zsk ks, k_ksk ks)
  | None => ([], [])
  end.
(** keystore.go:117-131 getDS *)
Definition getDS (s : store) (now : N) (name : string) : list rr :=
  match e_ds (getItem s name) with
  | Some (rs, expires) => if expires <? now then [] else rs
  | None => []
  end.

(** validator.go:68-82 SetAnchor, dnssec.go:84-86: the anchors are added when the validator is made *)
Record anchor := Anchor { a_owner : string; a_tag : N; a_alg : N; a_digesttype : N; a_digest : string }.
Definition anchor_ds (a : anchor) : rr :=
  RR (canonicalName (a_owner a)) TypeDS ClassINET MaxUint32 (DDS (a_tag a) (a_alg a) (a_digesttype a) (upper (a_digest a))).
Definition setAnchors (now : N) (l : list anchor) : store :=
  fold_left (fun s a => addDS s now (a_owner a) [anchor_ds a]) l [].
