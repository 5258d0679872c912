(** validate.go: host names and endpoints. *)
From Verif Require Import Base.
Local Open Scope N_scope.

(** validate.go:49-50 the characters allowed. The code goes through the characters of UTF-8 text; all others
    have no byte below 128, so that going through bytes gives the same result. *)
Definition host_char (c : ascii) : bool :=
  let n := N_of_ascii c in
  (48 <=? n) && (n <=? 57) || (97 <=? n) && (n <=? 122) || (65 <=? n) && (n <=? 90) || (n =? 45).
Definition hyphen : ascii := "-"%char.
(** strings.HasPrefix(label, "-"), strings.HasSuffix(label, "-") *)
Definition starts_hyphen (l : string) : bool := match l with String c _ => Ascii.eqb c hyphen | _ => false end.
Fixpoint ends_hyphen (l : string) : bool :=
  match l with EmptyString => false | String c EmptyString => Ascii.eqb c hyphen | String _ l' => ends_hyphen l' end.

(** validate.go:40-54 the inner loop over the characters of a label: nothing is looked at when it is empty *)
Fixpoint chars_ok (label rest : string) : bool :=
  match rest with
  | EmptyString => true
  | String c rest' =>
      if String.eqb label "" then false
      else if starts_hyphen label || ends_hyphen label then false
      else if host_char c then chars_ok label rest' else false
  end.
(** validate.go:56-60 the last label *)
Fixpoint has_nondigit (s : string) : bool :=
  match s with
  | EmptyString => false
  | String c s' => let n := N_of_ascii c in if (n <? 48) || (57 <? n) then true else has_nondigit s'
  end.

(** validate.go:30-61 validHostname; true: no error *)
Definition validHostname (name : string) : bool :=
  if String.eqb name "" then false
  else if 255 <? N.of_nat (String.length name) then false
  else
    let labels := split dot (trim_suffix dot name) in
    forallb (fun l => chars_ok l l) labels && has_nondigit (last labels ""%string).

(** strconv.ParseUint(port, 10, 16) succeeds: digits (no sign, no underscore in base 10) up to 65535 *)
Fixpoint parse_uint (acc : N) (s : string) : option N :=
  match s with
  | EmptyString => Some acc
  | String c s' =>
      let n := N_of_ascii c in
      if (48 <=? n) && (n <=? 57) then
        let v := acc * 10 + (n - 48) in if 65535 <? v then None else parse_uint v s'
      else None
  end.
Definition parse_port (s : string) : option N := match s with EmptyString => None | _ => parse_uint 0 s end.

(** validate.go:12-26 validEndpoint. net.SplitHostPort and net.ParseIP are parameters. *)
Definition validEndpoint (splitHostPort : string -> option (string * string)) (isIP : string -> bool) (addr : string) : bool :=
  match splitHostPort addr with
  | None => false
  | Some (host, port) =>
      match parse_port port with
      | None => false
      | Some _ => if isIP host then true else validHostname host
      end
  end.
