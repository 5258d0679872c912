(** cache-redis.go: the Redis cache backend. *)
From Coq Require Import DecimalString.
From Verif Require Import Base Bytes Dns Blob_model Cache_model.
Open Scope N_scope.

(** strconv.FormatUint(n, 10) *)
Definition itoa (n : N) : string := NilZero.string_of_uint (N.to_uint n).
Definition colon : ascii := ":"%char.

Section Redis.
Variable ipString : bytes -> string.
(** dns.Class.String, dns.Type.String *)
Variable classString typeString : N -> string.
(** dns.Msg.Pack / Unpack *)
Variable pack : msg -> option bytes.
Variable unpack : bytes -> option msg.
(** RedisBackendOptions.KeyPrefix *)
Variable keyPrefix : string.

(** cache-redis.go:286-292, the loop over the EDNS0 options *)
Definition write_subnet (o : edns0) : string :=
  match o with ECS _ mask _ addr => (ipString addr ++ "/" ++ itoa mask)%string | _ => ""%string end.
Definition write_subnets (l : list edns0) : string := fold_right (fun o s => (write_subnet o ++ s)%string) ""%string l.

(** cache-redis.go:258-295 keyFromQuery; [None]: no question, panics *)
Definition keyFromQuery (q : msg) : option string :=
  match m_question q with
  | [] => None
  | x :: _ =>
      let edns := match is_edns0 q with
                  | None => ""%string
                  | Some o => ((if opt_do o then "true" else "false") ++ String colon (write_subnets (opt_options o)))%string
                  end in
      Some (keyPrefix ++ lower (q_name x) ++ String colon (classString (q_class x) ++ String colon (typeString (q_type x) ++
            String colon ((if m_cd q then "cd" else "") ++ String colon edns))))%string
  end.

(** time.Time.Unix: whole seconds; the zero time is in year 1 *)
Definition unixSeconds (t : gotime) : Z := match t with None => -62135596800 | Some n => n / second end%Z.

(** cache-redis.go:52-87 encodeCacheAnswer; the buffers are the subject of C82. [None]: error *)
Definition encodeCacheAnswer (m : meta) (a : msg) : option bytes :=
  match pack a with
  | None => None
  | Some w => Some (1 :: (if mt_prefetch m then N.lor 0 1 else 0) :: be64 (u64_of_i64 (unixSeconds (mt_timestamp m))) ++ w)
  end.

(** cache-redis.go:91-120 decodeCacheAnswer: seconds, flag and message. [None]: error *)
Definition decodeCacheAnswer (b : bytes) : option (Z * bool * msg) :=
  if Nat.ltb (length b) 10 then None
  else if negb (at_ b 0 =? 1) then None
  else
    let flags := at_ b 1 in
    let ts := i64_of_u64 (de64 (skipn 2 b)) in
    match unpack (skipn 10 b) with
    | None => None
    | Some m => Some (ts, negb (N.land flags 1 =? 0), m)
    end.

(** The database, and the SET commands of background goroutines that did not run yet: key, value, lifetime. *)
Record rstate := RState { r_pending : list (string * bytes * Z); r_db : list (string * (bytes * Z)) }.
Definition rempty : rstate := RState [] [].

(** Redis: GET finds the value until its deadline; SET replaces it. *)
Fixpoint db_find (k : string) (db : list (string * (bytes * Z))) : option (bytes * Z) :=
  match db with [] => None | (k', v) :: db' => if String.eqb k' k then Some v else db_find k db' end.
Definition db_get (k : string) (now : Z) (db : list (string * (bytes * Z))) : option bytes :=
  match db_find k db with Some (v, d) => if (now <? d)%Z then Some v else None | None => None end.
Definition db_del (k : string) (db : list (string * (bytes * Z))) : list (string * (bytes * Z)) :=
  filter (fun e => negb (String.eqb (fst e) k)) db.

Inductive revent :=
| RStore (q : msg) (m : meta) (a : msg) (now : Z) (room : bool)  (* Store; room: the semaphore is free, or SyncSet *)
| RCommit (i : nat) (now : Z) (ok : bool)                        (* the SET of Store reaches the server, or fails *)
| RDel (k : string).                                             (* Flush, or the server drops a key *)

Fixpoint remove_nth {A} (i : nat) (l : list A) : list A :=
  match l with [] => [] | x :: l' => match i with O => l' | S i => x :: remove_nth i l' end end.

(** cache-redis.go:132-176 Store (SyncSet: directly followed by its RCommit), 178-184 set. [None]: panic *)
Definition rexec (st : rstate) (e : revent) : option rstate :=
  match e with
  | RStore q m a now room =>
      let ttl := (match mt_expiry m with Some x => x | None => unixSeconds None * second end - now)%Z in
      if (ttl <=? 0)%Z then Some st
      else match keyFromQuery q with
           | None => None
           | Some key =>
               match encodeCacheAnswer m a with
               | None => Some st
               | Some v => Some (if room then RState (r_pending st ++ [(key, v, ttl)]) (r_db st) else st)
               end
           end
  | RCommit i now ok =>
      match nth_error (r_pending st) i with
      | None => Some st
      | Some (k, v, ttl) =>
          Some (RState (remove_nth i (r_pending st)) (if ok then (k, (v, now + ttl)%Z) :: db_del k (r_db st) else r_db st))
      end
  | RDel k => Some (RState (r_pending st) (db_del k (r_db st)))
  end.
Fixpoint rexec_all (st : rstate) (l : list revent) : option rstate :=
  match l with [] => Some st | e :: l' => match rexec st e with None => None | Some st => rexec_all st l' end end.

(** cache-redis.go:185-214 Lookup: answer and prefetch flag; outer [None]: panic *)
Definition redis_lookup (q : msg) (now : Z) (st : rstate) : option (option (msg * bool)) :=
  match keyFromQuery q with
  | None => None
  | Some key =>
      match db_get key now (r_db st) with
      | None => Some None
      | Some v =>
          match decodeCacheAnswer v with
          | None => Some None
          | Some (ts, pf, a) =>
              match ageCachedAnswer a q (cacheAge now (ts * second)) with
              | None => Some None
              | Some a => Some (Some (a, pf))
              end
          end
      end
  end.
End Redis.
