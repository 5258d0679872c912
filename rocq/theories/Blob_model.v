(** Model of cache-blob.go (the stored form of a cache entry), of the cache key
    (lru-cache.go:36-42, 287-307) and of the cache-file record (lru-cache.go:57-128). *)
From Verif Require Import Base Bytes Dns.
Open Scope N_scope.

(** lru-cache.go:36-42 lruKey *)
Record lruKey := Key { k_q : question; k_net : string; k_do : bool; k_cd : bool; k_mask : N }.

(** time.Time: [None] is the zero time, [Some n] is n nanoseconds after the Unix epoch.
    Locations and monotonic readings are not modelled. *)
Definition gotime := option Z.

(** lru-cache.go:89-94 unixNano. UnixNano is modelled for times within int64 range. *)
Definition unixNano (t : gotime) : Z := match t with None => 0%Z | Some n => n end.
(** lru-cache.go:96-101 nanoTime *)
Definition nanoTime (n : Z) : gotime := if Z.eqb n 0 then None else Some n.

(** lru-cache.go:44-49 cacheAnswer without Msg, which is passed as wire bytes *)
Record meta := Meta { mt_timestamp : gotime; mt_expiry : gotime; mt_prefetch : bool }.

(* cache-blob.go:52-64 *)
Definition blobOffVersion : nat := 0.
Definition blobOffMetaFlags : nat := 1.
Definition blobOffTimestamp : nat := 2.
Definition blobOffExpiry : nat := 10.
Definition blobOffKeyFlags : nat := 18.
Definition blobOffQtype : nat := 19.
Definition blobOffQclass : nat := 21.
Definition blobOffECSMask : nat := 23.
Definition blobOffNetLen : nat := 24.
Definition blobOffNameLen : nat := 26.
Definition blobHdrLen : nat := 28.
(* cache-blob.go:66-71 *)
Definition blobMetaPrefetchEligible : N := 1.
Definition blobKeyDo : N := 1.
Definition blobKeyCD : N := 2.

(** cache-blob.go:125-134 keyFlags *)
Definition keyFlags (k : lruKey) : N :=
  N.lor (if k_do k then blobKeyDo else 0) (if k_cd k then blobKeyCD else 0).

(** b[i] for an index known to be in range *)
Definition at_ (b : bytes) (i : nat) : N := nth i b 0.

(** cache-blob.go:93-123 newCacheBlobFromWire; [None] is an error. The writes go to the
    offsets of a zeroed slice, in the order of the code. *)
Definition newCacheBlobFromWire (k : lruKey) (m : meta) (wire : bytes) : option bytes :=
  let net := bytes_of_string (k_net k) in
  let name := bytes_of_string (q_name (k_q k)) in
  if 65535 <? N.of_nat (length name) then None
  else if 65535 <? N.of_nat (length net) then None
  else
    let blob := repeat 0 (blobHdrLen + length net + length name + length wire) in
    let blob := if mt_prefetch m
                then put_at blobOffMetaFlags [N.lor (at_ blob blobOffMetaFlags) blobMetaPrefetchEligible] blob
                else blob in
    let blob := put_at blobOffTimestamp (be64 (u64_of_i64 (unixNano (mt_timestamp m)))) blob in
    let blob := put_at blobOffExpiry (be64 (u64_of_i64 (unixNano (mt_expiry m)))) blob in
    let blob := put_at blobOffKeyFlags [keyFlags k] blob in
    let blob := put_at blobOffQtype (be16 (q_type (k_q k))) blob in
    let blob := put_at blobOffQclass (be16 (q_class (k_q k))) blob in
    let blob := put_at blobOffECSMask [k_mask k] blob in
    let blob := put_at blobOffNetLen (be16 (N.of_nat (length net) mod 65536)) blob in
    let blob := put_at blobOffNameLen (be16 (N.of_nat (length name) mod 65536)) blob in
    let n := blobHdrLen in
    let blob := put_at n net blob in
    let n := (n + length net)%nat in
    let blob := put_at n name blob in
    let n := (n + length name)%nat in
    let blob := put_at n wire blob in
    Some blob.

(** cache-blob.go:136-158 accessors. They slice without a length check; all callers pass
    blobs of at least blobHdrLen bytes. *)
Definition b_timestamp (b : bytes) : Z := i64_of_u64 (de64 (skipn blobOffTimestamp b)).
Definition b_expiry (b : bytes) : Z := i64_of_u64 (de64 (skipn blobOffExpiry b)).
Definition b_version (b : bytes) : N := at_ b blobOffVersion.
Definition b_prefetch (b : bytes) : bool :=
  negb (N.eqb (N.land (at_ b blobOffMetaFlags) blobMetaPrefetchEligible) 0).
Definition b_netLen (b : bytes) : nat := N.to_nat (de16 (skipn blobOffNetLen b)).
Definition b_nameLen (b : bytes) : nat := N.to_nat (de16 (skipn blobOffNameLen b)).

(** cache-blob.go:162-164 keyRegion *)
Definition b_keyRegion (b : bytes) : bytes :=
  slice blobOffKeyFlags (blobHdrLen + b_netLen b + b_nameLen b) b.

(** cache-blob.go:167-169 message *)
Definition b_message (b : bytes) : bytes := skipn (blobHdrLen + b_netLen b + b_nameLen b) b.

(** cache-blob.go:175-191 matchesKey *)
Definition matchesKey (b : bytes) (k : lruKey) : bool :=
  if Nat.ltb (length b) blobHdrLen then false
  else
    let netLen := b_netLen b in
    let nameLen := b_nameLen b in
    if Nat.ltb (length b) (blobHdrLen + netLen + nameLen)
       || negb (N.eqb (at_ b blobOffKeyFlags) (keyFlags k))
       || negb (N.eqb (at_ b blobOffECSMask) (k_mask k))
       || negb (Nat.eqb netLen (String.length (k_net k)))
       || negb (Nat.eqb nameLen (String.length (q_name (k_q k))))
       || negb (N.eqb (de16 (skipn blobOffQtype b)) (q_type (k_q k)))
       || negb (N.eqb (de16 (skipn blobOffQclass b)) (q_class (k_q k)))
    then false
    else String.eqb (string_of_bytes (slice blobHdrLen (blobHdrLen + netLen) b)) (k_net k)
         && String.eqb (string_of_bytes (slice (blobHdrLen + netLen) (blobHdrLen + netLen + nameLen) b))
                       (q_name (k_q k)).

(** cache-blob.go:195-208 key *)
Definition b_key (b : bytes) : lruKey :=
  let netLen := b_netLen b in
  let nameLen := b_nameLen b in
  Key (Q (string_of_bytes (slice (blobHdrLen + netLen) (blobHdrLen + netLen + nameLen) b))
         (de16 (skipn blobOffQtype b)) (de16 (skipn blobOffQclass b)))
      (string_of_bytes (slice blobHdrLen (blobHdrLen + netLen) b))
      (negb (N.eqb (N.land (at_ b blobOffKeyFlags) blobKeyDo) 0))
      (negb (N.eqb (N.land (at_ b blobOffKeyFlags) blobKeyCD) 0))
      (at_ b blobOffECSMask).

(** lru-cache.go:58-61 cacheItemJSON, the record of the cache file. The JSON text itself
    is not modelled: encoding/json is trusted to give back the record that was written. *)
Record itemJSON := ItemJSON { j_key : lruKey; j_meta : meta; j_msg : bytes }.

(** lru-cache.go:73-83 newCacheItemJSON *)
Definition newCacheItemJSON (blob : bytes) : itemJSON :=
  ItemJSON (b_key blob)
           (Meta (nanoTime (b_timestamp blob)) (nanoTime (b_expiry blob)) (b_prefetch blob))
           (b_message blob).

Section Loader.
(** dns.Msg.Unpack succeeds on these bytes. *)
Variable unpacks : bytes -> bool.

(** lru-cache.go:111-127 toCacheBlob *)
Definition toCacheBlob (r : itemJSON) : option bytes :=
  if String.eqb (q_name (k_q (j_key r))) "" || Nat.eqb (length (j_msg r)) 0 then None
  else if negb (unpacks (j_msg r)) then None
  else newCacheBlobFromWire (j_key r) (j_meta r) (j_msg r).
End Loader.

Section KeyOf.
(** net.IP.String *)
Variable ipString : bytes -> string.

Definition apply_subnet (k : lruKey) (o : edns0) : lruKey :=
  match o with
  | ECS _ mask _ addr => Key (k_q k) (ipString addr) (k_do k) (k_cd k) mask
  | _ => k
  end.

(** lru-cache.go:287-305 lruKeyFromQuery; [None] is the panic of Question[0] on a message
    without a question. *)
Definition lruKeyFromQuery (q : msg) : option lruKey :=
  match m_question q with
  | [] => None
  | x :: _ =>
      let k := Key (Q (lower (q_name x)) (q_type x) (q_class x)) "" false (m_cd q) 0 in
      Some (match is_edns0 q with
            | None => k
            | Some o => fold_left apply_subnet (opt_options o)
                          (Key (k_q k) (k_net k) (opt_do o) (k_cd k) (k_mask k))
            end)
  end.
End KeyOf.
