(** Base definitions shared by all modules: byte strings and the functions of
    Go's [strings] package that the modelled code calls. Nothing here is specific
    to routedns. *)
From Coq Require Export List Arith NArith ZArith Bool String Ascii Lia Permutation.
Export ListNotations.
Open Scope list_scope.
Open Scope bool_scope.
Notation length := List.length.

Definition dot : ascii := "."%char.
Definition star : ascii := "*"%char.

(** Upper- to lower-case mapping of one ASCII byte. Models the ASCII part of Go's
    [strings.ToLower]; bytes >= 128 are left alone (Go maps Unicode letters, which
    do not occur in DNS presentation names: those escape bytes >= 127). *)
Definition lower_ascii (c : ascii) : ascii :=
  let n := N_of_ascii c in
  if (N.leb 65 n && N.leb n 90)%bool then ascii_of_N (n + 32) else c.

Fixpoint lower (s : string) : string :=
  match s with
  | EmptyString => EmptyString
  | String c s' => String (lower_ascii c) (lower s')
  end.

(** strings.ToUpper on ASCII *)
Definition upper_ascii (c : ascii) : ascii :=
  let n := N_of_ascii c in if N.leb 97 n && N.leb n 122 then ascii_of_N (n - 32) else c.
Fixpoint upper (s : string) : string :=
  match s with EmptyString => EmptyString | String c s' => String (upper_ascii c) (upper s') end.

(** [strings.Split(s, sep)] for a one-byte separator. *)
Fixpoint split (sep : ascii) (s : string) : list string :=
  match s with
  | EmptyString => [EmptyString]
  | String c s' =>
      if Ascii.eqb c sep then EmptyString :: split sep s'
      else match split sep s' with
           | h :: t => String c h :: t
           | [] => [String c EmptyString]
           end
  end.

(** [strings.Join(l, sep)] for a one-byte separator. *)
Fixpoint join (sep : ascii) (l : list string) : string :=
  match l with
  | [] => EmptyString
  | [x] => x
  | x :: l' => (x ++ String sep (join sep l'))%string
  end.

(** Does the string contain the byte ([strings.Contains(s, "c")]). *)
Fixpoint contains (c : ascii) (s : string) : bool :=
  match s with
  | EmptyString => false
  | String d s' => Ascii.eqb d c || contains c s'
  end.

(** [strings.TrimSuffix(s, "c")] for a one-byte suffix. *)
Fixpoint trim_suffix (c : ascii) (s : string) : string :=
  match s with
  | EmptyString => EmptyString
  | String d EmptyString => if Ascii.eqb d c then EmptyString else s
  | String d s' => String d (trim_suffix c s')
  end.

(** [strings.HasPrefix]. *)
Definition has_prefix (p s : string) : bool := String.prefix p s.

(** White space as in Go's [strings.TrimSpace], restricted to ASCII. *)
Definition is_space (c : ascii) : bool :=
  let n := N_of_ascii c in
  (N.eqb n 32 || (N.leb 9 n && N.leb n 13))%bool.

Fixpoint trim_left (l : list ascii) : list ascii :=
  match l with
  | [] => []
  | c :: l' => if is_space c then trim_left l' else l
  end.

(** [strings.TrimSpace]. *)
Definition trim_space (s : string) : string :=
  string_of_list_ascii
    (rev (trim_left (rev (trim_left (list_ascii_of_string s))))).

(** Ordinary case-insensitive comparison, [strings.EqualFold] restricted to ASCII. *)
Definition equal_fold (a b : string) : bool := String.eqb (lower a) (lower b).

(** [dns.Fqdn]: append a dot unless there is one (escaped trailing dots ignored). *)
Definition ends_with_dot (s : string) : bool :=
  match rev (list_ascii_of_string s) with
  | c :: _ => Ascii.eqb c dot
  | [] => false
  end.
Definition fqdn (s : string) : string :=
  if ends_with_dot s then s else (s ++ ".")%string.

(** strings.Fields: the maximal runs of characters other than white space *)
Fixpoint fields_from (cur : string) (s : string) : list string :=
  match s with
  | EmptyString => match cur with EmptyString => [] | _ => [cur] end
  | String c s' => if is_space c then match cur with EmptyString => fields_from EmptyString s' | _ => cur :: fields_from EmptyString s' end
                   else fields_from (cur ++ String c EmptyString)%string s'
  end.
Definition fields (s : string) : list string := fields_from EmptyString s.
