(** C76. Which trust anchors a DNSSEC validator starts with. *)
From Verif Require Import Base Dns Name_model Keystore_model Anchor_model Anchor_spec Anchor_proofs.
Local Open Scope Z_scope.

(** A date is read as the instant it names, counted over the calendar, to the nanosecond; nothing else is read as a date. *)
Theorem C76_date : forall s t, parseTime s = Some t <-> stamp true s t.
Proof. exact parse_iff. Qed.
Print Assumptions C76_date.
(** All of RFC 3339 is read, but for leap seconds and small letters. *)
Theorem C76_date_rfc : forall s t, stamp false s t -> parseTime s = Some t.
Proof. exact (fun s t H => proj2 (parse_iff s t) (stamp_loose s t H)). Qed.
Print Assumptions C76_date_rfc.
(** 00:00 on 11 January 2019 is 1547164800 s after 1970; the leap day of 2000 counts *)
Example C76_ex_date : parseTime "2019-01-11T00:00:00+00:00" = Some (1547164800 * 10 ^ 9) /\ parseTime "2000-02-29T23:59:59.25-01:30" = Some (951874199 * 10 ^ 9 + 250000000) /\
  parseTime "2001-02-29T00:00:00Z" = None /\ parseTime "2016-12-31T23:59:60Z" = None.
Proof. repeat split; vm_compute; reflexivity. Qed.
Example C76_ex_stamp : stamp false "2019-01-11T00:00:00+00:00" (1547164800 * 10 ^ 9).
Proof.
  assert (E : 1547164800 * 10 ^ 9 = (seconds 2019 1 11 0 0 0 - (0 * 3600 + 0 * 60)) * 10 ^ 9 + 0) by (rewrite <- unix by lia; vm_compute; reflexivity). rewrite E.
  exact (stamped false 2019 1 11 "00" 0 0 0 "" 0 "+00:00" (0 * 3600 + 0 * 60) ltac:(lia) ltac:(lia) ltac:(vm_compute; split; discriminate) (hour_two false 0 ltac:(lia)) ltac:(lia) ltac:(lia) (no_fraction false) (east false 0 0 ltac:(lia) ltac:(lia))).
Qed.

(** A fetch gives the anchors of the document's entries whose end is not known to have come, in order and for the root; it fails if there is none. *)
Theorem C76_fetched : forall get unmarshal now url l, fetchTrustAnchors get unmarshal now url = Some l <-> fetched get unmarshal now url l.
Proof. exact fetch_iff. Qed.
Print Assumptions C76_fetched.
(** No anchor comes from an entry that has expired. *)
Theorem C76_expired : forall get unmarshal now url l ks, fetchTrustAnchors get unmarshal now url = Some l -> serves get unmarshal url ks ->
  forall a, In a l -> exists k, In k ks /\ anchor_of k a /\ ~ expired now k.
Proof. exact from_unexpired. Qed.
Print Assumptions C76_expired.
(** Every entry without an end, or with one to come, is used. *)
Theorem C76_current : forall get unmarshal now url ks k, serves get unmarshal url ks -> In k ks -> (kd_until k = ""%string \/ exists t, stamp false (kd_until k) t /\ now < t) ->
  exists l a, fetchTrustAnchors get unmarshal now url = Some l /\ In a l /\ anchor_of k a.
Proof. exact current_used. Qed.
Print Assumptions C76_current.

(** Configured anchors come first; then those behind the URL; then those built in, the root's. *)
Theorem C76_choice : forall get unmarshal now configured url l, chooseAnchors get unmarshal now configured url = l <-> to_use get unmarshal now url iana_root configured l.
Proof. exact choose_iff. Qed.
Print Assumptions C76_choice.
(** There always are some. *)
Theorem C76_some : forall get unmarshal now configured url, chooseAnchors get unmarshal now configured url <> [].
Proof. exact never_empty. Qed.
Print Assumptions C76_some.
(** They are what the key store holds as DS records, each under its owner and in order, for 2^32 - 1 seconds from the start. *)
Theorem C76_store : forall get unmarshal now configured url name at_ l, 0 <= now -> to_use get unmarshal now url iana_root configured l -> Z.of_N at_ <= now / 10 ^ 9 + (2 ^ 32 - 1) ->
  Forall2 ds_of (filter (fun a => String.eqb (canonicalName (a_owner a)) (canonicalName name)) l) (getDS (newValidator get unmarshal now configured url) at_ name).
Proof. exact stored. Qed.
Print Assumptions C76_store.

(** The root's file in 2025: the key of 2010 is left out *)
Definition C76_k10 := KeyDigest "2010-07-15T00:00:00+00:00" "2019-01-11T00:00:00+00:00" 19036 8 2 "49AA".
Definition C76_k17 := KeyDigest "2017-02-02T00:00:00+00:00" "" 20326 8 2 "e06d".
Definition C76_k24 := KeyDigest "2024-07-18T00:00:00+00:00" "" 38696 8 2 "683d".
Definition C76_get (u : string) : option httpResult := if String.eqb u "https://a/root-anchors.xml" then Some (HttpResponse 200 (Some "xml"%string)) else if String.eqb u "https://a/gone" then Some (HttpResponse 404 (Some "xml"%string)) else None.
Definition C76_xml (b : string) : option (list keydigest) := if String.eqb b "xml" then Some [C76_k10; C76_k17; C76_k24] else None.
Definition C76_2025 : Z := 1735689600 * 10 ^ 9.
Definition C76_2018 : Z := 1514764800 * 10 ^ 9.
Example C76_ex_choice : chooseAnchors C76_get C76_xml C76_2025 [] "https://a/root-anchors.xml" = [Anchor "." 20326 8 2 "e06d"; Anchor "." 38696 8 2 "683d"] /\
  chooseAnchors C76_get C76_xml C76_2025 [] "https://a/gone" = defaultTrustAnchors /\
  chooseAnchors C76_get C76_xml C76_2025 [Anchor "example." 1 8 2 "AB"] "https://a/root-anchors.xml" = [Anchor "example." 1 8 2 "AB"].
Proof. repeat split; vm_compute; reflexivity. Qed.
Example C76_ex_serves : serves C76_get C76_xml "https://a/root-anchors.xml" [C76_k10; C76_k17; C76_k24].
Proof. exists 200, "xml"%string. repeat split; discriminate. Qed.
Example C76_ex_expired : expired C76_2025 C76_k10.
Proof. exists (1547164800 * 10 ^ 9). split; [exact C76_ex_stamp|discriminate]. Qed.
Example C76_ex_store : map rr_data (getDS (newValidator C76_get C76_xml C76_2025 [] "https://a/root-anchors.xml") 1735689601 ".") = [DDS 20326 8 2 "E06D"; DDS 38696 8 2 "683D"].
Proof. vm_compute. reflexivity. Qed.

(** Not so: that an entry is used only from its validFrom on. In 2018 the key of 2024 would be trusted. *)
Theorem C76_from_refuted : ~ (forall get unmarshal now url l ks, fetchTrustAnchors get unmarshal now url = Some l -> serves get unmarshal url ks ->
  forall a, In a l -> exists k, In k ks /\ anchor_of k a /\ ~ (exists t, stamp false (kd_from k) t /\ now < t)).
Proof. exact from_ignored. Qed.
Print Assumptions C76_from_refuted.
(** Not so: that an entry whose end is past by its text is left out however the end is written. RFC 3339 allows small letters and a leap second, which the library does not read; and then the entry is used for ever. *)
Theorem C76_letters_refuted : exists get unmarshal now url, fetchTrustAnchors get unmarshal now url = Some [Anchor "." 19036 8 2 "49AA"; Anchor "." 19037 8 2 "49AB"] /\
  serves get unmarshal url [KeyDigest "" "2016-12-31T23:59:60Z" 19036 8 2 "49AA"; KeyDigest "" "2019-01-11t00:00:00z" 19037 8 2 "49AB"] /\ 1735689600 * 10 ^ 9 <= now.
Proof. exact letters_kept. Qed.
Print Assumptions C76_letters_refuted.
