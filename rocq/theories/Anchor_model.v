(** dnssec-iana.go, and the choice of trust anchors in dnssec.go. Times are in nanoseconds since 1970. *)
From Verif Require Import Base Cidr_model Keystore_model.
Local Open Scope Z_scope.

(** ** time.Parse(time.RFC3339, s), from the Go library (format.go). parseRFC3339, which is tried first there, gives the same where it succeeds and is left out. *)
Definition digitz (c : ascii) : option Z := option_map Z.of_N (digit c).
Definition bindz {A B} (o : option A) (f : A -> option B) : option B := match o with Some x => f x | None => None end.
(** getnum with fixed set: two digits *)
Definition num2 (s : string) : option (Z * string) :=
  match s with String a (String b t) => bindz (digitz a) (fun x => bindz (digitz b) (fun y => Some (10 * x + y, t))) | _ => None end.
(** getnum without: one or two *)
Definition num1 (s : string) : option (Z * string) :=
  match s with
  | String a t => bindz (digitz a) (fun x => match t with String b u => match digitz b with Some y => Some (10 * x + y, u) | None => Some (x, t) end | EmptyString => Some (x, t) end)
  | EmptyString => None
  end.
(** the year: four digits *)
Definition num4 (s : string) : option (Z * string) := bindz (num2 s) (fun '(x, t) => bindz (num2 t) (fun '(y, u) => Some (100 * x + y, u))).
(** skip *)
Definition skipc (c : ascii) (s : string) : option string := match s with String a t => if Ascii.eqb a c then Some t else None | EmptyString => None end.
Definition within (lo hi x : Z) : option unit := if (lo <=? x) && (x <=? hi) then Some tt else None.
(** The digits at the front *)
Fixpoint digits (s : string) : list Z * string :=
  match s with
  | String a t => match digitz a with Some x => let '(l, u) := digits t in (x :: l, u) | None => ([], s) end
  | EmptyString => ([], s)
  end.
Definition decimalz (l : list Z) : Z := fold_left (fun n d => 10 * n + d) l 0.
(** parseNanoseconds: nine digits count *)
Definition nanos (l : list Z) : Z := let l9 := firstn 9 l in decimalz l9 * 10 ^ Z.of_nat (9 - length l9).
(** A fraction, if there is one *)
Definition fraction (s : string) : Z * string :=
  match s with
  | String p (String a t) =>
      if Ascii.eqb p "."%char || Ascii.eqb p ","%char then match digitz a with Some _ => let '(l, u) := digits (String a t) in (nanos l, u) | None => (0, s) end else (0, s)
  | _ => (0, s)
  end.
(** Z or an offset, in seconds *)
Definition zone (s : string) : option (Z * string) :=
  match s with
  | String c t =>
      if Ascii.eqb c "Z"%char then Some (0, t)
      else bindz (num2 t) (fun '(h, t) => bindz (skipc ":"%char t) (fun t => bindz (num2 t) (fun '(m, t) => bindz (within 0 24 h) (fun _ => bindz (within 0 60 m) (fun _ =>
           let o := (h * 60 + m) * 60 in if Ascii.eqb c "+"%char then Some (o, t) else if Ascii.eqb c "-"%char then Some (- o, t) else None)))))
  | EmptyString => None
  end.
(** isLeap, daysBefore, daysIn *)
Definition isLeap (y : Z) : bool := (y mod 4 =? 0) && (negb (y mod 100 =? 0) || (y mod 400 =? 0)).
Definition daysBefore (m : Z) : Z := nth (Z.to_nat m) [0; 31; 59; 90; 120; 151; 181; 212; 243; 273; 304; 334; 365] 0.
Definition daysIn (m y : Z) : Z := if (m =? 2) && isLeap y then 29 else daysBefore m - daysBefore (m - 1).
(** daysSinceEpoch: cycles of 400, 100, 4 and single years. The library counts from a year long past that is 1 modulo 400; here from the year -399. *)
Definition daysSinceEpoch (year : Z) : Z :=
  let y := year + 399 in
  let n := y / 400 in let y := y - 400 * n in let d := 146097 * n in
  let n := y / 100 in let y := y - 100 * n in let d := d + 36524 * n in
  let n := y / 4 in let y := y - 4 * n in let d := d + 1461 * n in
  d + 365 * y.
(** Date, for fields that are in range: seconds since 1970; 865259 days from the year -399 to 1970 *)
Definition unixDate (y m d hh mm ss : Z) : Z :=
  let days := daysSinceEpoch y + daysBefore (m - 1) + (if isLeap y && (3 <=? m) then 1 else 0) + (d - 1) in
  (days - 865259) * 86400 + hh * 3600 + mm * 60 + ss.
Definition parseTime (s : string) : option Z :=
  bindz (num4 s) (fun '(y, s) => bindz (skipc "-"%char s) (fun s =>
  bindz (num2 s) (fun '(m, s) => bindz (within 1 12 m) (fun _ => bindz (skipc "-"%char s) (fun s =>
  bindz (num2 s) (fun '(d, s) => bindz (skipc "T"%char s) (fun s =>
  bindz (num1 s) (fun '(hh, s) => bindz (within 0 23 hh) (fun _ => bindz (skipc ":"%char s) (fun s =>
  bindz (num2 s) (fun '(mm, s) => bindz (within 0 59 mm) (fun _ => bindz (skipc ":"%char s) (fun s =>
  bindz (num2 s) (fun '(ss, s) => bindz (within 0 59 ss) (fun _ =>
  let '(ns, s) := fraction s in
  bindz (zone s) (fun '(o, s) => match s with EmptyString => bindz (within 1 (daysIn m y) d) (fun _ => Some ((unixDate y m d hh mm ss - o) * 10 ^ 9 + ns)) | _ => None end)))))))))))))))).

(** ** dnssec-iana.go *)
(** dnssec-iana.go:21-28 ianaKeyDigest *)
Record keydigest := KeyDigest { kd_from : string; kd_until : string; kd_tag : N; kd_alg : N; kd_type : N; kd_digest : string }.
(** dnssec-iana.go:85-96 isIANAAnchorValid *)
Definition isIANAAnchorValid (k : keydigest) (now : Z) : bool :=
  if String.eqb (kd_until k) "" then true else match parseTime (kd_until k) with None => true | Some t => now <? t end.
(** What comes of the request: an error, or a status and a body, which cannot be read if None *)
Inductive httpResult := HttpFailed | HttpResponse (status : Z) (body : option string).
(** dnssec-iana.go:32-81 FetchTrustAnchorsFromURL. get: the request, None if the URL is refused; unmarshal: the KeyDigest elements of the XML, None if it does not parse *)
Definition fetchTrustAnchors (get : string -> option httpResult) (unmarshal : string -> option (list keydigest)) (now : Z) (url : string) : option (list anchor) :=
  match get url with
  | Some (HttpResponse status (Some body)) =>
      if (status <? 200) || (299 <? status) then None
      else match unmarshal body with
           | None => None
           | Some ks =>
               let anchors := map (fun k => Anchor "." (kd_tag k) (kd_alg k) (kd_type k) (kd_digest k)) (filter (fun k => isIANAAnchorValid k now) ks) in
               match anchors with [] => None | _ => Some anchors end
           end
  | _ => None
  end.
(** dnssec.go:47-62 *)
Definition defaultTrustAnchors : list anchor :=
  [Anchor "." 20326 8 2 "E06D44B80B8F1D39A95C0B0D7C65D08458E880409BBC683457104237C7F8EC8D"; Anchor "." 38696 8 2 "683D2D0ACB8C9B712A1948B27F741219298D0A450D612C483AF444A4C0FB2B16"].
(** dnssec.go:72-83: the anchors that NewDNSSECValidator gives to the validator *)
Definition chooseAnchors (get : string -> option httpResult) (unmarshal : string -> option (list keydigest)) (now : Z) (configured : list anchor) (url : string) : list anchor :=
  let anchors := match configured with
                 | [] => if String.eqb url "" then [] else match fetchTrustAnchors get unmarshal now url with Some l => l | None => [] end
                 | _ => configured
                 end in
  match anchors with [] => defaultTrustAnchors | _ => anchors end.
(** cmd/routedns/main.go:1050-1064: the validator's anchors from the configuration; the store starts at now, in seconds *)
Definition newValidator (get : string -> option httpResult) (unmarshal : string -> option (list keydigest)) (now : Z) (configured : list anchor) (url : string) : store :=
  setAnchors (Z.to_N (now / 10 ^ 9)) (chooseAnchors get unmarshal now configured url).
