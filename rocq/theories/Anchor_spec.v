(** Dates, and which trust anchors a validator should use. *)
From Verif Require Import Base Dns Name_model Keystore_model Anchor_model.
Local Open Scope Z_scope.

(** ** The calendar *)
Definition leap (y : Z) : bool := if y mod 400 =? 0 then true else if y mod 100 =? 0 then false else y mod 4 =? 0.
Definition month_days (y m : Z) : Z :=
  if (m =? 4) || (m =? 6) || (m =? 9) || (m =? 11) then 30 else if m =? 2 then if leap y then 29 else 28 else 31.
Definition year_days (y : Z) : Z := if leap y then 366 else 365.
(** Days from the first day of the year 0: all years before, all months before, the days before *)
Definition total (l : list Z) : Z := fold_right Z.add 0 l.
Definition day_number (y m d : Z) : Z :=
  total (map (fun i => year_days (Z.of_nat i)) (seq 0 (Z.to_nat y))) + total (map (fun i => month_days y (Z.of_nat i)) (seq 1 (Z.to_nat (m - 1)))) + (d - 1).
Definition seconds (y m d hh mm ss : Z) : Z := (day_number y m d - day_number 1970 1 1) * 86400 + hh * 3600 + mm * 60 + ss.

(** ** RFC 3339. Loose: what the library takes beyond it *)
Definition dchar (n : Z) : ascii := ascii_of_N (48 + Z.to_N n).
Definition one (n : Z) : string := String (dchar n) "".
Definition two (n : Z) : string := String (dchar (n / 10)) (String (dchar (n mod 10)) "").
Definition four (n : Z) : string := (two (n / 100) ++ two (n mod 100))%string.
Fixpoint dtext (l : list Z) : string := match l with [] => "" | d :: l => String (dchar d) (dtext l) end.
Fixpoint dvalue (l : list Z) : Z := match l with [] => 0 | d :: l => d * 10 ^ Z.of_nat (length l) + dvalue l end.
Inductive fraction_is (loose : bool) : string -> Z -> Prop :=
| no_fraction : fraction_is loose "" 0
| some_fraction : forall p l, l <> [] -> Forall (fun d => 0 <= d <= 9) l -> p = "."%char \/ loose = true /\ p = ","%char ->
    fraction_is loose (String p (dtext l)) ((dvalue l * 10 ^ 9) / 10 ^ Z.of_nat (length l)).
Inductive zone_is (loose : bool) : string -> Z -> Prop :=
| zulu : zone_is loose "Z" 0
| east : forall h m, 0 <= h <= (if loose then 24 else 23) -> 0 <= m <= (if loose then 60 else 59) -> zone_is loose ("+" ++ two h ++ ":" ++ two m) (h * 3600 + m * 60)
| west : forall h m, 0 <= h <= (if loose then 24 else 23) -> 0 <= m <= (if loose then 60 else 59) -> zone_is loose ("-" ++ two h ++ ":" ++ two m) (- (h * 3600 + m * 60)).
Inductive hour_is (loose : bool) : string -> Z -> Prop :=
| hour_two : forall h, 0 <= h <= 23 -> hour_is loose (two h) h
| hour_one : forall h, loose = true -> 0 <= h <= 9 -> hour_is loose (one h) h.
Inductive stamp (loose : bool) : string -> Z -> Prop :=
| stamped : forall y m d H hh mm ss F ns Z0 off, 0 <= y <= 9999 -> 1 <= m <= 12 -> 1 <= d <= month_days y m -> hour_is loose H hh -> 0 <= mm <= 59 -> 0 <= ss <= 59 ->
    fraction_is loose F ns -> zone_is loose Z0 off ->
    stamp loose (four y ++ "-" ++ two m ++ "-" ++ two d ++ "T" ++ H ++ ":" ++ two mm ++ ":" ++ two ss ++ F ++ Z0) ((seconds y m d hh mm ss - off) * 10 ^ 9 + ns).

(** ** Trust anchors *)
(** The keys of the root that IANA published in 2017 and 2024 (root-anchors.xml): RSA/SHA-256, with SHA-256 digests *)
Definition iana_root : list anchor := map (fun kd => Anchor "." (fst kd) 8 2 (snd kd))
  [(20326%N, "E06D44B80B8F1D39A95C0B0D7C65D08458E880409BBC683457104237C7F8EC8D"%string); (38696%N, "683D2D0ACB8C9B712A1948B27F741219298D0A450D612C483AF444A4C0FB2B16"%string)].
(** The anchor for an entry: of the root *)
Definition anchor_of (k : keydigest) (a : anchor) : Prop :=
  a_owner a = "."%string /\ a_tag a = kd_tag k /\ a_alg a = kd_alg k /\ a_digesttype a = kd_type k /\ a_digest a = kd_digest k.
(** An entry whose date has come *)
Definition expired (now : Z) (k : keydigest) : Prop := exists t, stamp false (kd_until k) t /\ t <= now.
(** What the server answers with: a document that lists these entries *)
Definition serves (get : string -> option httpResult) (unmarshal : string -> option (list keydigest)) (url : string) (ks : list keydigest) : Prop :=
  exists status body, get url = Some (HttpResponse status (Some body)) /\ 200 <= status <= 299 /\ unmarshal body = Some ks.
(** Those of l for which P holds, in order, each related by R to one of l' *)
Inductive picked {A B} (P : A -> Prop) (R : A -> B -> Prop) : list A -> list B -> Prop :=
| picked_nil : picked P R [] []
| picked_skip : forall x l l', ~ P x -> picked P R l l' -> picked P R (x :: l) l'
| picked_take : forall x y l l', P x -> R x y -> picked P R l l' -> picked P R (x :: l) (y :: l').
(** An entry whose date, as the library reads it, has come *)
Definition past (now : Z) (k : keydigest) : Prop := exists t, stamp true (kd_until k) t /\ t <= now.
(** The usable anchors behind a URL *)
Definition fetched (get : string -> option httpResult) (unmarshal : string -> option (list keydigest)) (now : Z) (url : string) (l : list anchor) : Prop :=
  l <> [] /\ exists ks, serves get unmarshal url ks /\ picked (fun k => ~ past now k) anchor_of ks l.
(** The anchors to use: those configured; without any, those behind the URL; without those too, the ones built in *)
Inductive to_use (get : string -> option httpResult) (unmarshal : string -> option (list keydigest)) (now : Z) (url : string) (builtin : list anchor) : list anchor -> list anchor -> Prop :=
| use_configured : forall c, c <> [] -> to_use get unmarshal now url builtin c c
| use_fetched : forall l, url <> ""%string -> fetched get unmarshal now url l -> to_use get unmarshal now url builtin [] l
| use_builtin : url = ""%string \/ (forall l, ~ fetched get unmarshal now url l) -> to_use get unmarshal now url builtin [] builtin.
(** The DS record of an anchor *)
Definition ds_of (a : anchor) (r : rr) : Prop :=
  rr_type r = TypeDS /\ rr_class r = ClassINET /\ rr_name r = canonicalName (a_owner a) /\ rr_ttl r = 4294967295%N /\ rr_data r = DDS (a_tag a) (a_alg a) (a_digesttype a) (upper (a_digest a)).
