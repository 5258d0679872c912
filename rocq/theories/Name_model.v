(** Domain names in presentation form: the functions of github.com/miekg/dns that dnssec/ calls (trusted base:
    written from the library's documentation and source, for names as strings), and dnssec/denial_existence.go:
    308-383, the canonical order. *)
From Verif Require Import Base Bytes.
Open Scope N_scope.

Definition backslash : ascii := "\"%char.

(** dns.IsFqdn: the name ends in a dot that is not escaped *)
Fixpoint fq (last : bool) (s : string) : bool :=
  match s with
  | EmptyString => last
  | String c s' =>
      if Ascii.eqb c backslash then match s' with EmptyString => false | String _ s'' => fq false s'' end
      else fq (Ascii.eqb c dot) s'
  end.
Definition isFqdn (s : string) : bool := fq false s.
(** dns.Fqdn *)
Definition fqdn (s : string) : string := if isFqdn s then s else (s ++ ".")%string.
(** dns.CanonicalName *)
Definition canonicalName (s : string) : string := lower (fqdn s).

(** dns.Split / SplitDomainName on a fully qualified name: cut at dots that are not escaped *)
Fixpoint split_esc (cur : string) (s : string) : list string :=
  match s with
  | EmptyString => [cur]
  | String c s' =>
      if Ascii.eqb c backslash then
        match s' with
        | EmptyString => [(cur ++ String c EmptyString)%string]
        | String d s'' => split_esc (cur ++ String c (String d EmptyString))%string s''
        end
      else if Ascii.eqb c dot then cur :: split_esc EmptyString s'
      else split_esc (cur ++ String c EmptyString)%string s'
  end.
Definition splitDomainName (s : string) : list string :=
  if String.eqb s "." then [] else removelast (split_esc EmptyString s).
(** dns.CountLabel *)
Definition countLabel (s : string) : nat := length (splitDomainName s).
(** dns.CompareDomainName: the number of labels in common, from the right *)
Fixpoint common (a b : list string) : nat :=
  match a, b with
  | x :: a', y :: b' => if equal_fold x y then S (common a' b') else O
  | _, _ => O
  end.
Definition compareDomainName (a b : string) : nat := common (rev (splitDomainName a)) (rev (splitDomainName b)).
(** dns.IsSubDomain(parent, child) *)
Definition isSubDomain (parent child : string) : bool := Nat.eqb (compareDomainName parent child) (countLabel parent).

(** strings.Join(labels, ".") *)
Definition joinLabels (l : list string) : string := join dot l.
(** dnssec/denial_existence.go:312-321 lastNLabels *)
Definition lastNLabels (name : string) (n : nat) : string :=
  if Nat.eqb n 0 then "."%string
  else let labels := splitDomainName name in
       if Nat.leb (length labels) n then canonicalName name
       else fqdn (joinLabels (skipn (length labels - n) labels)).

(** dnssec/validator.go:369-379 parentZone: strings.Cut at the first dot, escaped or not *)
Fixpoint cut_dot (s : string) : option string :=
  match s with
  | EmptyString => None
  | String c s' => if Ascii.eqb c dot then Some s' else cut_dot s'
  end.
Definition parentZone (name : string) : string :=
  let name := canonicalName name in
  if String.eqb name "." then "."%string
  else match cut_dot name with
       | None => "."%string
       | Some p => if String.eqb p "" then "."%string else p
       end.

(** dnssec/denial_existence.go:383 isDigit *)
Definition isDigit (c : ascii) : bool := let n := N_of_ascii c in (48 <=? n) && (n <=? 57).
Definition digit_val (c : ascii) : N := N_of_ascii c - 48.
(** dnssec/denial_existence.go:357-379, the loop of canonicalLabels: the current label and the rest of the name *)
Fixpoint labels_from (cur : list N) (s : string) : list (list N) :=
  match s with
  | EmptyString => []
  | String c s1 =>
      if Ascii.eqb c backslash then
        match s1 with
        | EmptyString => labels_from cur s1
        | String d1 s2 =>
            match s2 with
            | String d2 (String d3 s4) =>
                if isDigit d1 && isDigit d2 && isDigit d3
                then labels_from (cur ++ [(digit_val d1 * 100 + digit_val d2 * 10 + digit_val d3) mod 256]) s4
                else labels_from (cur ++ [N_of_ascii d1]) s2
            | _ => labels_from (cur ++ [N_of_ascii d1]) s2
            end
        end
      else if Ascii.eqb c dot then cur :: labels_from [] s1
      else labels_from (cur ++ [N_of_ascii c]) s1
  end.
(** dnssec/denial_existence.go:351-381 canonicalLabels *)
Definition canonicalLabels (name : string) : list (list N) :=
  let name := canonicalName name in
  if String.eqb name "." then [] else labels_from [] name.

(** bytes.Compare *)
Fixpoint bytes_compare (a b : list N) : comparison :=
  match a, b with
  | [], [] => Eq
  | [], _ => Lt
  | _, [] => Gt
  | x :: a', y :: b' => match N.compare x y with Eq => bytes_compare a' b' | c => c end
  end.
(** dnssec/denial_existence.go:328-347 canonicalNameCmp; the loop runs over the labels from the last *)
Fixpoint labels_compare (al bl : list (list N)) : comparison :=
  match al, bl with
  | [], [] => Eq
  | [], _ => Lt
  | _, [] => Gt
  | x :: al', y :: bl' => match bytes_compare x y with Eq => labels_compare al' bl' | c => c end
  end.
Definition canonicalNameCmp (a b : string) : comparison :=
  labels_compare (rev (canonicalLabels a)) (rev (canonicalLabels b)).

(** What dns.UnpackDomainName makes of the labels of a name on the wire. *)
Definition special (b : N) : bool := existsb (N.eqb b) [46; 32; 39; 64; 59; 40; 41; 34; 92].
Definition dig (n : N) : ascii := ascii_of_N (48 + n).
Definition show_byte (b : N) : string :=
  if special b then String backslash (String (ascii_of_N b) EmptyString)
  else if (b <? 32) || (126 <? b) then
    String backslash (String (dig (b / 100)) (String (dig (b / 10 mod 10)) (String (dig (b mod 10)) EmptyString)))
  else String (ascii_of_N b) EmptyString.
Fixpoint show_label (l : list N) : string := match l with [] => EmptyString | b :: l' => (show_byte b ++ show_label l')%string end.
Fixpoint show_labels (n : list (list N)) : string := match n with [] => EmptyString | l :: n' => (show_label l ++ String dot (show_labels n'))%string end.
Definition show (n : list (list N)) : string := match n with [] => "."%string | _ => show_labels n end.
