From Verif Require Import Base Base_proofs Bytes Bytes_proofs Dns Blob_model Blob_spec.
From Coq Require Import ZifyBool ZifyNat ZifyN.
Open Scope N_scope.

Lemma put_at_app a b c src :
  length b = length src -> put_at (length a) src (a ++ b ++ c) = a ++ src ++ c.
Proof.
  intros H. unfold put_at.
  rewrite firstn_app, firstn_all, Nat.sub_diag. cbn [firstn]. rewrite app_nil_r. f_equal.
  assert (Hr : firstn (length (a ++ b ++ c) - length a) src = src).
  { apply firstn_all2. rewrite !app_length. lia. }
  rewrite Hr. f_equal.
  replace (length a + length src)%nat with (length (a ++ b)) by (rewrite app_length; lia).
  rewrite app_assoc. rewrite skipn_app, skipn_all, Nat.sub_diag. reflexivity.
Qed.

(* writing one byte / a field at a constant offset of an explicit list *)
Lemma put_at_eq off src a b c :
  length a = off -> length b = length src -> put_at off src (a ++ b ++ c) = a ++ src ++ c.
Proof. intros <-. apply put_at_app. Qed.

Definition hdr (k : lruKey) (m : meta) (netlen namelen : N) : bytes :=
  [0; if mt_prefetch m then 1 else 0] ++ be64 (u64_of_i64 (unixNano (mt_timestamp m)))
  ++ be64 (u64_of_i64 (unixNano (mt_expiry m))) ++ [keyFlags k]
  ++ be16 (q_type (k_q k)) ++ be16 (q_class (k_q k)) ++ [k_mask k] ++ be16 netlen ++ be16 namelen.

Lemma repeat_add {A} (x : A) n m : repeat x (n + m) = repeat x n ++ repeat x m.
Proof. induction n; cbn [repeat app Nat.add]; congruence. Qed.

Lemma header_puts pf t e kf qt qc mk nl ml R :
  put_at blobOffNameLen (be16 ml) (put_at blobOffNetLen (be16 nl) (put_at blobOffECSMask [mk]
   (put_at blobOffQclass (be16 qc) (put_at blobOffQtype (be16 qt) (put_at blobOffKeyFlags [kf]
   (put_at blobOffExpiry (be64 e) (put_at blobOffTimestamp (be64 t)
     ([0; pf] ++ repeat 0 8 ++ (repeat 0 18 ++ R))))))))) =
  ([0; pf] ++ be64 t ++ be64 e ++ [kf] ++ be16 qt ++ be16 qc ++ [mk] ++ be16 nl) ++ be16 ml ++ R.
Proof.
  unfold be64, be16.
  repeat match goal with |- context [?x mod 256] => generalize (x mod 256); intros ? end.
  assert (G : forall off src (dst : bytes), (off + length src <= 28)%nat -> (28 <= length dst)%nat ->
     put_at off src dst = firstn off dst ++ src ++ skipn (off + length src) dst /\
     (28 <= length (firstn off dst ++ src ++ skipn (off + length src) dst))%nat).
  { intros off src dst H1 H2. unfold put_at. rewrite (firstn_all2 src) by lia. split; [reflexivity|].
    rewrite !app_length, firstn_length, skipn_length. lia. }
  match goal with |- context [put_at blobOffTimestamp ?s ?l] =>
    assert (H0 : (28 <= length l)%nat) by (rewrite !app_length, !repeat_length; cbn [length]; lia) end.
  repeat match goal with
  | H : (28 <= length ?l)%nat |- context [put_at ?o ?s ?l] =>
      let E := fresh in
      destruct (G o s l) as [E ?]; [cbv [length blobOffNameLen blobOffNetLen blobOffECSMask blobOffQclass blobOffQtype blobOffKeyFlags blobOffExpiry blobOffTimestamp]; lia|exact H|];
      rewrite E; clear E H
  end.
  vm_compute. reflexivity.
Qed.

Opaque be16 be64.

Lemma newBlob_shape k m w :
  key_ok k ->
  newCacheBlobFromWire k m w =
  Some (hdr k m (N.of_nat (String.length (k_net k))) (N.of_nat (String.length (q_name (k_q k))))
        ++ bytes_of_string (k_net k) ++ bytes_of_string (q_name (k_q k)) ++ w).
Proof.
  intros (Ht & Hc & Hm & Hn & Hnet). unfold newCacheBlobFromWire.
  rewrite !bytes_of_string_length.
  rewrite (proj2 (N.ltb_ge _ _)) by lia. rewrite (proj2 (N.ltb_ge _ _)) by lia.
  rewrite !N.mod_small by lia.
  rewrite <- !Nat.add_assoc. rewrite repeat_add.
  set (R := repeat 0 (String.length (k_net k) + (String.length (q_name (k_q k)) + length w))).
  set (ts := be64 (u64_of_i64 (unixNano (mt_timestamp m)))).
  set (ex := be64 (u64_of_i64 (unixNano (mt_expiry m)))).
  set (qt := be16 (q_type (k_q k))). set (qc := be16 (q_class (k_q k))).
  set (nl := be16 (N.of_nat (String.length (k_net k)))).
  set (ml := be16 (N.of_nat (String.length (q_name (k_q k))))).
  assert (H0 : (if mt_prefetch m
       then put_at blobOffMetaFlags
              [N.lor (at_ (repeat 0 blobHdrLen ++ R) blobOffMetaFlags) blobMetaPrefetchEligible]
              (repeat 0 blobHdrLen ++ R)
       else repeat 0 blobHdrLen ++ R) =
     [0; if mt_prefetch m then 1 else 0] ++ repeat 0 8 ++ (repeat 0 18 ++ R)).
  { destruct (mt_prefetch m).
    - change (repeat 0 blobHdrLen ++ R) with ([0] ++ [0] ++ (repeat 0 26 ++ R)) at 2.
      rewrite put_at_eq by reflexivity. reflexivity.
    - reflexivity. }
  rewrite H0. clear H0.
  subst ts ex qt qc nl ml.
  rewrite (header_puts (if mt_prefetch m then 1 else 0) (u64_of_i64 (unixNano (mt_timestamp m)))
             (u64_of_i64 (unixNano (mt_expiry m))) (keyFlags k) (q_type (k_q k)) (q_class (k_q k)) (k_mask k)).
  subst R. rewrite repeat_add. rewrite (app_assoc _ (be16 (N.of_nat (String.length (q_name (k_q k)))))).
  rewrite put_at_eq; [|reflexivity|now rewrite repeat_length, bytes_of_string_length].
  rewrite repeat_add. rewrite (app_assoc _ (bytes_of_string (k_net k))).
  rewrite put_at_eq; [| |now rewrite repeat_length, bytes_of_string_length].
  2:{ rewrite app_length, bytes_of_string_length. reflexivity. }
  rewrite (app_assoc _ (bytes_of_string (q_name (k_q k)))).
  rewrite <- (app_nil_r (repeat 0 (length w))).
  rewrite put_at_eq; [| |now rewrite repeat_length].
  2:{ rewrite !app_length, !bytes_of_string_length. reflexivity. }
  rewrite app_nil_r. unfold hdr. rewrite <- !app_assoc. reflexivity.
Qed.

Transparent be16 be64.

Section Fields.
Variables (k : lruKey) (m : meta) (w b : bytes).
Hypothesis Hk : key_ok k.
Hypothesis Hb : newCacheBlobFromWire k m w = Some b.

Let Hshape : b = hdr k m (N.of_nat (String.length (k_net k))) (N.of_nat (String.length (q_name (k_q k))))
        ++ bytes_of_string (k_net k) ++ bytes_of_string (q_name (k_q k)) ++ w.
Proof. rewrite newBlob_shape in Hb by exact Hk. congruence. Qed.

Lemma f_netLen : b_netLen b = String.length (k_net k).
Proof.
  destruct Hk as (Ht & Hc & Hm & Hn & Hnet). rewrite Hshape. unfold b_netLen, hdr. rewrite <- !app_assoc.
  change (N.to_nat (de16 (be16 (N.of_nat (String.length (k_net k)))
     ++ (be16 (N.of_nat (String.length (q_name (k_q k)))) ++ bytes_of_string (k_net k) ++ bytes_of_string (q_name (k_q k)) ++ w))) = String.length (k_net k)).
  rewrite de16_be16 by lia. lia.
Qed.
Lemma f_nameLen : b_nameLen b = String.length (q_name (k_q k)).
Proof.
  destruct Hk as (Ht & Hc & Hm & Hn & Hnet). rewrite Hshape. unfold b_nameLen, hdr. rewrite <- !app_assoc.
  change (N.to_nat (de16 (be16 (N.of_nat (String.length (q_name (k_q k))))
     ++ (bytes_of_string (k_net k) ++ bytes_of_string (q_name (k_q k)) ++ w))) = String.length (q_name (k_q k))).
  rewrite de16_be16 by lia. lia.
Qed.
Lemma f_qtype : de16 (skipn blobOffQtype b) = q_type (k_q k).
Proof.
  destruct Hk as (Ht & Hc & Hm & Hn & Hnet). rewrite Hshape. unfold hdr.
  etransitivity; [|apply (de16_be16 (q_type (k_q k)) []); lia]. reflexivity.
Qed.
Lemma f_qclass : de16 (skipn blobOffQclass b) = q_class (k_q k).
Proof.
  destruct Hk as (Ht & Hc & Hm & Hn & Hnet). rewrite Hshape. unfold hdr.
  etransitivity; [|apply (de16_be16 (q_class (k_q k)) []); lia]. reflexivity.
Qed.
Lemma f_flags : at_ b blobOffKeyFlags = keyFlags k.
Proof. rewrite Hshape. reflexivity. Qed.
Lemma f_mask : at_ b blobOffECSMask = k_mask k.
Proof. rewrite Hshape. reflexivity. Qed.
Lemma f_version : b_version b = 0.
Proof. rewrite Hshape. reflexivity. Qed.
Lemma f_prefetch : b_prefetch b = mt_prefetch m.
Proof. rewrite Hshape. unfold b_prefetch, hdr, at_. cbn [nth app blobOffMetaFlags]. destruct (mt_prefetch m); reflexivity. Qed.

Lemma unixNano_ok t : time_ok t -> i64_ok (unixNano t).
Proof. destruct t as [n|]; cbn; [tauto|]. unfold i64_ok. lia. Qed.

Lemma f_ts : time_ok (mt_timestamp m) -> b_timestamp b = unixNano (mt_timestamp m).
Proof.
  intros H. rewrite Hshape. unfold b_timestamp, hdr.
  rewrite <- (i64_u64 (unixNano (mt_timestamp m))) at 2 by now apply unixNano_ok.
  f_equal. etransitivity; [|apply (de64_be64 (u64_of_i64 (unixNano (mt_timestamp m))) []), u64_of_i64_lt].
  reflexivity.
Qed.
Lemma f_ex : time_ok (mt_expiry m) -> b_expiry b = unixNano (mt_expiry m).
Proof.
  intros H. rewrite Hshape. unfold b_expiry, hdr.
  rewrite <- (i64_u64 (unixNano (mt_expiry m))) at 2 by now apply unixNano_ok.
  f_equal. etransitivity; [|apply (de64_be64 (u64_of_i64 (unixNano (mt_expiry m))) []), u64_of_i64_lt].
  reflexivity.
Qed.

Let Hhdr : length (hdr k m (N.of_nat (String.length (k_net k))) (N.of_nat (String.length (q_name (k_q k))))) = blobHdrLen.
Proof. reflexivity. Qed.

Lemma skipn_len {A} (a c : list A) n : length a = n -> skipn n (a ++ c) = c.
Proof. intros <-. rewrite skipn_app, skipn_all, Nat.sub_diag. reflexivity. Qed.
Lemma firstn_len {A} (a c : list A) n : length a = n -> firstn n (a ++ c) = a.
Proof. intros <-. rewrite firstn_app, firstn_all, Nat.sub_diag. cbn. apply app_nil_r. Qed.

Lemma f_message : b_message b = w.
Proof.
  unfold b_message. rewrite f_netLen, f_nameLen. rewrite Hshape, !app_assoc.
  apply skipn_len. rewrite !app_length, Hhdr, !bytes_of_string_length. reflexivity.
Qed.
Lemma f_net : string_of_bytes (slice blobHdrLen (blobHdrLen + b_netLen b) b) = k_net k.
Proof.
  rewrite f_netLen. unfold slice. rewrite Nat.add_comm, Nat.add_sub, Hshape.
  rewrite (skipn_len _ _ blobHdrLen Hhdr), firstn_len by apply bytes_of_string_length.
  apply string_bytes_inv.
Qed.
Lemma f_name : string_of_bytes (slice (blobHdrLen + b_netLen b) (blobHdrLen + b_netLen b + b_nameLen b) b) = q_name (k_q k).
Proof.
  rewrite f_netLen, f_nameLen. unfold slice.
  replace (blobHdrLen + String.length (k_net k) + String.length (q_name (k_q k)) - (blobHdrLen + String.length (k_net k)))%nat
    with (String.length (q_name (k_q k))) by lia.
  rewrite Hshape, app_assoc, skipn_len, firstn_len; [apply string_bytes_inv|apply bytes_of_string_length|].
  rewrite app_length, Hhdr, bytes_of_string_length. reflexivity.
Qed.
Lemma f_length : length b = (blobHdrLen + String.length (k_net k) + String.length (q_name (k_q k)) + length w)%nat.
Proof. rewrite Hshape. rewrite !app_length, Hhdr, !bytes_of_string_length. lia. Qed.

Lemma flags_do k' : negb (N.eqb (N.land (keyFlags k') blobKeyDo) 0) = k_do k'.
Proof. unfold keyFlags. destruct (k_do k'), (k_cd k'); reflexivity. Qed.
Lemma flags_cd k' : negb (N.eqb (N.land (keyFlags k') blobKeyCD) 0) = k_cd k'.
Proof. unfold keyFlags. destruct (k_do k'), (k_cd k'); reflexivity. Qed.

Lemma f_key : b_key b = k.
Proof.
  unfold b_key. rewrite f_net, f_name, f_qtype, f_qclass, f_flags, f_mask, flags_do, flags_cd.
  destruct k as [[? ? ?] ? ? ? ?]; reflexivity.
Qed.

Lemma f_matches k' : matchesKey b k' = true <-> k' = k.
Proof.
  unfold matchesKey. rewrite f_net, f_name, f_qtype, f_qclass, f_flags, f_mask, f_netLen, f_nameLen, f_length.
  rewrite !(proj2 (Nat.ltb_ge _ _)) by lia. cbn [orb].
  split.
  - destruct (negb _ || _ || _ || _ || _ || _) eqn:E; [discriminate|].
    apply orb_false_iff in E; destruct E as [E E6].
    apply orb_false_iff in E; destruct E as [E E5].
    apply orb_false_iff in E; destruct E as [E E4].
    apply orb_false_iff in E; destruct E as [E E3].
    apply orb_false_iff in E; destruct E as [E1 E2].
    apply negb_false_iff in E1, E2, E5, E6. apply N.eqb_eq in E1, E2, E5, E6.
    intros H. apply andb_prop in H. destruct H as [H1 H2]. apply String.eqb_eq in H1, H2.
    assert (k_do k' = k_do k) by (rewrite <- (flags_do k'), <- E1; apply flags_do).
    assert (k_cd k' = k_cd k) by (rewrite <- (flags_cd k'), <- E1; apply flags_cd).
    destruct k as [[? ? ?] ? ? ? ?], k' as [[? ? ?] ? ? ? ?]; cbn in *; congruence.
  - intros ->. rewrite !N.eqb_refl, !Nat.eqb_refl, !String.eqb_refl. reflexivity.
Qed.

Lemma f_json : meta_ok m -> newCacheItemJSON b = ItemJSON k m w.
Proof.
  intros [H1 H2]. unfold newCacheItemJSON. rewrite f_key, f_message, f_prefetch, f_ts, f_ex by assumption.
  assert (G : forall t, time_ok t -> nanoTime (unixNano t) = t).
  { intros [n|]; cbn; [|reflexivity]. intros [_ Hn]. unfold nanoTime. destruct (Z.eqb_spec n 0); [contradiction|reflexivity]. }
  rewrite !G by assumption. destruct m; reflexivity.
Qed.

(** The span from offset 18 up to the message is a function of the key alone. *)
Definition key_region (k : lruKey) : bytes :=
  [keyFlags k] ++ be16 (q_type (k_q k)) ++ be16 (q_class (k_q k)) ++ [k_mask k]
  ++ be16 (N.of_nat (String.length (k_net k))) ++ be16 (N.of_nat (String.length (q_name (k_q k))))
  ++ bytes_of_string (k_net k) ++ bytes_of_string (q_name (k_q k)).

Lemma f_keyRegion : b_keyRegion b = key_region k.
Proof.
  unfold b_keyRegion, slice. rewrite f_netLen, f_nameLen, Hshape.
  match goal with |- firstn _ (skipn _ ?a) = _ => set (A := a) end.
  assert (HA : A = (([0; if mt_prefetch m then 1 else 0] ++ be64 (u64_of_i64 (unixNano (mt_timestamp m)))
  ++ be64 (u64_of_i64 (unixNano (mt_expiry m)))) ++ key_region k) ++ w).
  { subst A. unfold key_region, hdr. rewrite <- !app_assoc. reflexivity. }
  rewrite HA, <- app_assoc. rewrite skipn_len by reflexivity. apply firstn_len.
  unfold key_region. rewrite !app_length, !bytes_of_string_length. cbn [length be16]. unfold blobHdrLen, blobOffKeyFlags. lia.
Qed.
End Fields.

Lemma newBlob_total k m w : key_ok k -> exists b, newCacheBlobFromWire k m w = Some b.
Proof. intros H. rewrite newBlob_shape by exact H. eauto. Qed.

Lemma newBlob_some_lengths k m w b :
  newCacheBlobFromWire k m w = Some b ->
  (N.of_nat (String.length (q_name (k_q k))) <= 65535) /\ (N.of_nat (String.length (k_net k)) <= 65535).
Proof.
  unfold newCacheBlobFromWire. rewrite !bytes_of_string_length.
  destruct (N.ltb_spec 65535 (N.of_nat (String.length (q_name (k_q k))))); [discriminate|].
  destruct (N.ltb_spec 65535 (N.of_nat (String.length (k_net k)))); [discriminate|].
  intros _. lia.
Qed.

Lemma blob_reload unpacks k m w b :
  key_ok k -> meta_ok m -> q_name (k_q k) <> ""%string -> w <> [] -> unpacks w = true ->
  newCacheBlobFromWire k m w = Some b ->
  toCacheBlob unpacks (newCacheItemJSON b) = Some b.
Proof.
  intros Hk Hm Hn Hw Hu Hb. rewrite (f_json k m w b Hk Hb Hm). unfold toCacheBlob. cbn [j_key j_meta j_msg].
  destruct (String.eqb_spec (q_name (k_q k)) ""); [contradiction|].
  destruct w; [contradiction|]. cbn [length Nat.eqb orb]. rewrite Hu. exact Hb.
Qed.

Lemma key_region_inj k1 k2 : key_ok k1 -> key_ok k2 -> key_region k1 = key_region k2 -> k1 = k2.
Proof.
  intros H1 H2 E.
  destruct (newBlob_total k1 (Meta None None false) [] H1) as [b1 B1].
  destruct (newBlob_total k2 (Meta None None false) [] H2) as [b2 B2].
  assert (b1 = b2).
  { pose proof B1 as S1. pose proof B2 as S2. rewrite newBlob_shape in S1, S2 by assumption.
    assert (G : forall k, hdr k (Meta None None false) (N.of_nat (String.length (k_net k))) (N.of_nat (String.length (q_name (k_q k))))
        ++ bytes_of_string (k_net k) ++ bytes_of_string (q_name (k_q k)) ++ [] = repeat 0 18 ++ key_region k).
    { intros k. rewrite app_nil_r. reflexivity. }
    rewrite G in S1, S2. congruence. }
  subst b2. rewrite <- (f_key k1 _ _ b1 H1 B1). rewrite <- (f_key k2 _ _ b1 H2 B2). reflexivity.
Qed.
