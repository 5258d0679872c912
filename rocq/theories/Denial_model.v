(** dnssec/denial_existence.go:95-306 and dnssec/denial.go:50-78: what NSEC and NSEC3 records prove. *)
From Verif Require Import Base Bytes Dns Name_model.
Open Scope N_scope.

(** *dns.NSEC and *dns.NSEC3, the fields that are used *)
Record nsec := Nsec { n_owner : string; n_next : string; n_types : list N }.
Record nsec3 := Nsec3 { h_owner : string; h_hash : N; h_flags : N; h_iter : N; h_salt : string; h_next : string; h_types : list N }.
(** The type switches of denial_existence.go:61-68 and denial.go:34-43 *)
Definition as_nsec (r : rr) : list nsec := match rr_data r with DNSEC next ts => [Nsec (rr_name r) next ts] | _ => [] end.
Definition as_nsec3 (r : rr) : list nsec3 :=
  match rr_data r with DNSEC3 h f i s next ts => [Nsec3 (rr_name r) h f i s next ts] | _ => [] end.

(** slices.Contains *)
Definition contains (ts : list N) (t : N) : bool := existsb (N.eqb t) ts.
Definition is_lt (c : comparison) : bool := match c with Lt => true | _ => false end.

(** denial_existence.go:187-199 nsecCovers *)
Definition nsecCovers (n : nsec) (qname : string) : bool :=
  let owner := canonicalName (n_owner n) in
  let next := canonicalName (n_next n) in
  let qname := canonicalName qname in
  if String.eqb qname owner then false
  else if is_lt (canonicalNameCmp owner next) then is_lt (canonicalNameCmp owner qname) && is_lt (canonicalNameCmp qname next)
  else is_lt (canonicalNameCmp owner qname) || is_lt (canonicalNameCmp qname next).
(** denial_existence.go:177-182 nsecClosestEncloser *)
Definition nsecClosestEncloser (qname : string) (n : nsec) : string :=
  let owner := canonicalName (n_owner n) in
  let next := canonicalName (n_next n) in
  lastNLabels qname (Nat.max (compareDomainName qname owner) (compareDomainName qname next)).
(** "*." + name *)
Definition wild (s : string) : string := ("*." ++ s)%string.

(** denial_existence.go:157-171, the loop over the records for the wildcard *)
Fixpoint wildcard_covered (nsecs : list nsec) (wildcard : string) : bool :=
  match nsecs with
  | [] => false
  | n :: rest => if String.eqb (canonicalName (n_owner n)) wildcard then false
                 else if nsecCovers n wildcard then true
                 else wildcard_covered rest wildcard
  end.
(** denial_existence.go:144-172 nsecProvesNXDOMAIN *)
Definition nsecProvesNXDOMAIN (nsecs : list nsec) (qname : string) : bool :=
  let qname := canonicalName qname in
  match find (fun n => nsecCovers n qname) nsecs with
  | None => false
  | Some n => wildcard_covered nsecs (canonicalName (wild (nsecClosestEncloser qname n)))
  end.
(** denial_existence.go:113-139 nsecProvesNODATA *)
Definition lacks (ts : list N) (qtype : N) : bool := negb (contains ts qtype) && negb (contains ts TypeCNAME).
Fixpoint wildcard_nodata (nsecs covers : list nsec) (qname : string) (qtype : N) : bool :=
  match covers with
  | [] => false
  | c :: rest =>
      if nsecCovers c qname then
        match find (fun w => String.eqb (canonicalName (n_owner w)) (canonicalName (wild (nsecClosestEncloser qname c)))) nsecs with
        | Some w => lacks (n_types w) qtype
        | None => wildcard_nodata nsecs rest qname qtype
        end
      else wildcard_nodata nsecs rest qname qtype
  end.
Definition nsecProvesNODATA (nsecs : list nsec) (qname : string) (qtype : N) : bool :=
  let qname := canonicalName qname in
  match find (fun n => String.eqb (canonicalName (n_owner n)) qname) nsecs with
  | Some n => lacks (n_types n) qtype
  | None => wildcard_nodata nsecs nsecs qname qtype
  end.
(** denial_existence.go:97-108 nsecProvesDenial *)
Definition nsecProvesDenial (nsecs : list nsec) (qname : string) (qtype rcode : N) : bool :=
  match nsecs with
  | [] => false
  | _ => if rcode =? RcodeNameError then nsecProvesNXDOMAIN nsecs qname
         else if rcode =? RcodeSuccess then nsecProvesNODATA nsecs qname qtype else false
  end.

(** ** NSEC3. HashName of the library computes the hash of a name with the algorithm, the iterations and the salt. *)
Section NSEC3.
Variable hashName : string -> N -> N -> string -> string.

(** strings compared as byte sequences *)
Definition str_lt (a b : string) : bool := is_lt (bytes_compare (bytes_of_string a) (bytes_of_string b)).

(** The first label and the rest of an owner name, which must have at least two labels (library, NSEC3.Match and Cover) *)
Definition owner_split (owner : string) : option (string * string) :=
  match splitDomainName owner with
  | h :: z :: zs => Some (h, fqdn (joinLabels (z :: zs)))
  | _ => None
  end.
(** Library, NSEC3.Match *)
Definition nsec3_match (r : nsec3) (name : string) : bool :=
  let nameHash := hashName name (h_hash r) (h_iter r) (h_salt r) in
  match owner_split (upper (h_owner r)) with
  | None => false
  | Some (ownerHash, ownerZone) => isSubDomain ownerZone (upper name) && String.eqb ownerHash nameHash
  end.
(** Library, NSEC3.Cover. It answers true for the name that the record belongs to, unless the record is the last one. *)
Definition nsec3_cover (r : nsec3) (name : string) : bool :=
  let nameHash := hashName name (h_hash r) (h_iter r) (h_salt r) in
  match owner_split (upper (h_owner r)) with
  | None => false
  | Some (ownerHash, ownerZone) =>
      if isSubDomain ownerZone (upper name) then
        let nextHash := h_next r in
        if String.eqb ownerHash nextHash && negb (String.eqb nameHash ownerHash) then true
        else if str_lt nextHash ownerHash then str_lt ownerHash nameHash || str_lt nameHash nextHash
        else if str_lt nameHash ownerHash then false
        else str_lt nameHash nextHash
      else false
  end.

(** denial_existence.go:284-300 nsec3MatchAny, nsec3CoverAny, 301-308 nsec3OptOutCovers *)
Definition nsec3MatchAny (rs : list nsec3) (name : string) : bool := existsb (fun r => nsec3_match r name) rs.
Definition nsec3CoverAny (rs : list nsec3) (name : string) : bool := existsb (fun r => nsec3_cover r name) rs.
Definition nsec3OptOutCovers (rs : list nsec3) (name : string) : bool :=
  existsb (fun r => N.testbit (h_flags r) 0 && nsec3_cover r name) rs.
(** denial_existence.go:268-280 nsec3ClosestEncloser; the loop from k = n - 1 down to 0 *)
Fixpoint encloser_from (rs : list nsec3) (qname : string) (k : nat) : option (string * string) :=
  match k with
  | O => None
  | S k' => let candidate := lastNLabels qname k' in
            if nsec3MatchAny rs candidate then Some (candidate, lastNLabels qname (S k')) else encloser_from rs qname k'
  end.
Definition nsec3ClosestEncloser (rs : list nsec3) (qname : string) : option (string * string) :=
  let qname := canonicalName qname in encloser_from rs qname (countLabel qname).
(** denial_existence.go:248-262 nsec3ProvesNXDOMAIN *)
Definition nsec3ProvesNXDOMAIN (rs : list nsec3) (qname : string) : bool :=
  match nsec3ClosestEncloser rs qname with
  | None => false
  | Some (ce, nextCloser) =>
      if negb (nsec3CoverAny rs nextCloser) then false
      else if nsec3CoverAny rs (wild ce) then true
      else nsec3OptOutCovers rs nextCloser
  end.
(** denial_existence.go:217-245 nsec3ProvesNODATA *)
Definition nsec3ProvesNODATA (rs : list nsec3) (qname : string) (qtype : N) : bool :=
  let qname := canonicalName qname in
  match find (fun r => nsec3_match r qname) rs with
  | Some r => lacks (h_types r) qtype
  | None =>
      if (qtype =? TypeDS) && nsec3OptOutCovers rs qname then true
      else match nsec3ClosestEncloser rs qname with
           | None => false
           | Some (ce, nextCloser) =>
               if nsec3CoverAny rs nextCloser then
                 match find (fun r => nsec3_match r (wild ce)) rs with
                 | Some r => lacks (h_types r) qtype
                 | None => false
                 end
               else false
           end
  end.
(** denial_existence.go:203-214 nsec3ProvesDenial *)
Definition nsec3ProvesDenial (rs : list nsec3) (qname : string) (qtype rcode : N) : bool :=
  match rs with
  | [] => false
  | _ => if rcode =? RcodeNameError then nsec3ProvesNXDOMAIN rs qname
         else if rcode =? RcodeSuccess then nsec3ProvesNODATA rs qname qtype else false
  end.

(** denial.go:72-76 bitmapProvesInsecureDelegation, 50-55 nsecDeniesDS, 61-66 nsec3DeniesDS; name is canonical *)
Definition insecureBitmap (ts : list N) : bool := contains ts TypeNS && negb (contains ts TypeDS) && negb (contains ts TypeSOA).
Definition nsecDeniesDS (n : nsec) (name : string) : bool := String.eqb (canonicalName (n_owner n)) name && insecureBitmap (n_types n).
Definition nsec3DeniesDS (r : nsec3) (name : string) : bool :=
  if nsec3_match r name then insecureBitmap (h_types r) else N.testbit (h_flags r) 0 && nsec3_cover r name.
End NSEC3.
