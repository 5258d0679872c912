(** Lists by location and by autonomous system, and combined address lists: geoip-db.go, asn-db.go, ip-db-multi.go.
    The database file (github.com/oschwald/maxminddb-golang) is an oracle: what a lookup of an address finds. Opening and closing of the
    files is in Refresh_model. *)
From Verif Require Import Base Bytes Net Cidr_model Redis_model.
Local Open Scope N_scope.

(** strconv.ParseUint(s, 10, 64) *)
Fixpoint parse_u64 (acc : N) (s : string) : option N :=
  match s with
  | EmptyString => Some acc
  | String c s' => match digit c with
                   | Some d => let v := acc * 10 + d in if v <? 2^64 then parse_u64 v s' else None
                   | None => None
                   end
  end.
Definition parseUint64 (s : string) : option N := match s with EmptyString => None | _ => parse_u64 0 s end.

(** strings.Split(r, "#")[0] *)
Definition before_hash (s : string) : string := match split "#"%char s with x :: _ => x | [] => EmptyString end.
(** geoip-db.go:42-55, asn-db.go:42-54: the loop over the rules; [None] is an error. The map is the list of its keys. *)
Fixpoint load_ids (rules : list string) (db : list N) : option (list N) :=
  match rules with
  | [] => Some db
  | r :: rules' =>
      let r := trim_space r in
      if has_prefix "#" r || String.eqb r EmptyString then load_ids rules' db
      else match parseUint64 (trim_space (before_hash r)) with
           | None => None
           | Some v => load_ids rules' (v :: db)
           end
  end.
Definition newIDs (rules : list string) : option (list N) := load_ids rules [].
(** _, ok := m.db[id] *)
Definition has (db : list N) (id : N) : bool := existsb (N.eqb id) db.

(** The record of geoip-db.go:70-83. An attribute that the database does not have for the address is 0. *)
Record place := Place { p_continent : N; p_country : N; p_city : N; p_subdivisions : list N }.
(** BlocklistMatch: list and rule *)
Definition bmatch := (string * string)%type.
(** geoip-db.go:95-103: the loop over the ids *)
Fixpoint first_id (name : string) (db ids : list N) : option bmatch :=
  match ids with
  | [] => None
  | id :: ids' => if has db id then Some (name, itoa id) else first_id name db ids'
  end.
(** geoip-db.go:67-103 Match; the lookup is [None] on an error *)
Definition geo_match (name : string) (db : list N) (lookup : bytes -> option place) (ip : bytes) : option bmatch :=
  match lookup ip with
  | None => None
  | Some r => first_id name db ([p_continent r; p_country r; p_city r] ++ p_subdivisions r)
  end.
(** asn-db.go:67-86 Match; the number is 0 if the database has none for the address *)
Definition asn_match (name : string) (db : list N) (lookup : bytes -> option N) (ip : bytes) : option bmatch :=
  match lookup ip with
  | None => None
  | Some asn => if has db asn then Some (name, itoa asn) else None
  end.
(** ip-db-multi.go:32-39 Match *)
Fixpoint multi_match (dbs : list (bytes -> option bmatch)) (ip : bytes) : option bmatch :=
  match dbs with
  | [] => None
  | db :: dbs' => match db ip with Some m => Some m | None => multi_match dbs' ip end
  end.
(** ip-db-multi.go:41-49 Close: the databases closed, and the error returned *)
Fixpoint multi_close (dbs : list (option string)) (i : nat) (err : option string) : list nat * option string :=
  match dbs with
  | [] => ([], err)
  | e :: dbs' =>
      let '(c, r) := multi_close dbs' (S i) (match err with None => e | Some _ => err end) in (i :: c, r)
  end.
