(** dnssec/validator.go, the effectful parts of dnssec/denial.go and dnssec/denial_existence.go, and dnssec.go.
    The validator's functions are programs that ask the resolver, read the clock and use the key store; all of these are left open,
    so that other queries may run in between. *)
From Verif Require Import Base Bytes Dns Name_model Denial_model Keystore_model.
From Coq Require Import ZArith.
Open Scope N_scope.

(** A set of records with the same name and type, and the signatures for it *)
Record group := Group { g_name : string; g_type : N; g_rrs : list rr; g_sigs : list rr }.

Inductive prog (R : Type) : Type :=
| Ret (r : R)
| Panic                                              (* nil dereference *)
| Fuel                                               (* recursion deeper than allowed for; never reached *)
| Ask (q : msg) (k : result -> prog R)               (* the resolver *)
| Now (k : N -> prog R)                              (* v.now() *)
| GetKeys (zone : string) (k : list rr * list rr -> prog R)
| PutKeys (zone : string) (keys : list rr) (now : N) (k : prog R)
| GetDS (zone : string) (k : list rr -> prog R)
| Shuffle (l : list group) (k : list group -> prog R). (* the order of iteration over a map *)
Arguments Ret {R}. Arguments Panic {R}. Arguments Fuel {R}. Arguments Ask {R}. Arguments Now {R}.
Arguments GetKeys {R}. Arguments PutKeys {R}. Arguments GetDS {R}. Arguments Shuffle {R}.

Fixpoint bind {A B} (p : prog A) (f : A -> prog B) : prog B :=
  match p with
  | Ret r => f r
  | Panic => Panic
  | Fuel => Fuel
  | Ask q k => Ask q (fun a => bind (k a) f)
  | Now k => Now (fun t => bind (k t) f)
  | GetKeys z k => GetKeys z (fun x => bind (k x) f)
  | PutKeys z ks t k => PutKeys z ks t (bind k f)
  | GetDS z k => GetDS z (fun x => bind (k x) f)
  | Shuffle l k => Shuffle l (fun x => bind (k x) f)
  end.
Notation "'do' x <- p ; f" := (bind p (fun x => f)) (at level 200, x pattern, p at level 100, f at level 200).

(** Errors: whether errors.Is(err, ErrInsecureDelegation); wrapping with %w keeps this *)
Inductive verr := Insecure | Bogus.

(** Library: RRSIG.ValidityPeriod, for the time t in seconds; division of int64 truncates *)
Definition year68 : Z := (2 ^ 31)%Z.
Definition validityPeriod (inception expiration t : N) : bool :=
  let utc := Z.of_N t in
  let modi := Z.quot (Z.of_N inception - utc) year68 in
  let mode := Z.quot (Z.of_N expiration - utc) year68 in
  let ti := (Z.of_N inception + modi * year68)%Z in
  let te := (Z.of_N expiration + mode * year68)%Z in
  (ti <=? utc)%Z && (utc <=? te)%Z.

Definition is_rrsig (r : rr) : bool := match rr_data r with DRRSIG _ _ _ _ _ _ _ _ _ => true | _ => false end.
Definition sig_covered (r : rr) : N := match rr_data r with DRRSIG c _ _ _ _ _ _ _ _ => c | _ => 0 end.
Definition sig_signer (r : rr) : string := match rr_data r with DRRSIG _ _ _ _ _ _ _ s _ => s | _ => EmptyString end.
Definition key_alg (r : rr) : N := match rr_data r with DDNSKEY _ _ a _ => a | _ => 0 end.
Definition is_ds (r : rr) : bool := match rr_data r with DDS _ _ _ _ => true | _ => false end.

(** validator.go:462-484 groupRRsByTypeAndName: the map as the list of its keys with both values *)
Definition rr_key (r : rr) : string * N := (canonicalName (rr_name r), rr_type r).
Definition sig_key (r : rr) : string * N := (canonicalName (rr_name r), sig_covered r).
Definition key_eqb (a b : string * N) : bool := String.eqb (fst a) (fst b) && N.eqb (snd a) (snd b).
Fixpoint dedup (l : list (string * N)) : list (string * N) :=
  match l with [] => [] | k :: l' => k :: filter (fun x => negb (key_eqb k x)) (dedup l') end.
Definition groups (section : list rr) : list group :=
  let rrs := filter (fun r => negb (is_rrsig r)) section in
  let sigs := filter is_rrsig section in
  map (fun k => Group (fst k) (snd k) (filter (fun r => key_eqb k (rr_key r)) rrs) (filter (fun r => key_eqb k (sig_key r)) sigs)) (dedup (map rr_key rrs)).

Section VALIDATOR.
(** The library's cryptography: RRSIG.Verify, DNSKEY.KeyTag, the digest of DNSKEY.ToDS, and HashName *)
Variable verify : rr -> rr -> list rr -> bool.
Variable keyTag : rr -> N.
Variable toDS : rr -> N -> option string.
Variable hashName : string -> N -> N -> string -> string.

(** validator.go:382-390 findKeysByTag *)
Definition findKeysByTag (keys : list rr) (tag alg : N) : list rr := filter (fun k => N.eqb (keyTag k) tag && N.eqb (key_alg k) alg) keys.
(** validator.go:400-418 verifyRRSIG; which error it is does not matter *)
Definition verifyRRSIG (sig : rr) (keys rrset : list rr) (now : N) : bool :=
  match rr_data sig with
  | DRRSIG _ alg _ _ expiration inception tag _ _ =>
      if validityPeriod inception expiration now then existsb (fun k => verify sig k rrset) (findKeysByTag keys tag alg) else false
  | _ => false
  end.
(** validator.go:424-431 verifyAnyRRSIG *)
Definition verifyAnyRRSIG (sigs keys rrset : list rr) (now : N) : bool := existsb (fun s => verifyRRSIG s keys rrset now) sigs.
(** validator.go:435-450 filterKeysByDS *)
Definition ds_matches (key d : rr) : bool :=
  match rr_data d with
  | DDS _ _ dt digest => match toDS key dt with Some computed => equal_fold computed digest | None => false end
  | _ => false
  end.
Definition filterKeysByDS (keys ds : list rr) : list rr := filter (fun k => existsb (ds_matches k) ds) keys.

(** denial.go:21-45 verifyDSDenial; the order of the groups does not matter *)
Definition denies_ds (r : rr) (name : string) : bool :=
  existsb (fun n => nsecDeniesDS n name) (as_nsec r) || existsb (fun n => nsec3DeniesDS hashName n name) (as_nsec3 r).
Definition verifyDSDenial (resp : msg) (name : string) (parentKeys : list rr) (now : N) : bool :=
  existsb (fun g => (N.eqb (g_type g) TypeNSEC || N.eqb (g_type g) TypeNSEC3) && verifyAnyRRSIG (g_sigs g) parentKeys (g_rrs g) now &&
                    existsb (fun r => denies_ds r (canonicalName name)) (g_rrs g))
          (groups (m_ns resp)).

(** validator.go:309-312, 340-343: SetQuestion, SetEdns0, CheckingDisabled; the random id is left out *)
Definition key_query (name : string) (t : N) : msg :=
  set_edns0 4096 true (Msg 0 false 0 false false true false false true 0 [Q (canonicalName name) t ClassINET] [] [] []).

(** validator.go:308-334 lookupDNSKEY: ZSKs, KSKs, signatures *)
Definition lookupDNSKEY (name : string) : prog (option (list rr * list rr * list rr)) :=
  Ask (key_query name TypeDNSKEY) (fun res =>
    match res with
    | Err _ => Ret None
    | Drop => Panic
    | Ans a => if negb (N.eqb (m_rcode a) RcodeSuccess) then Ret None
               else Ret (Some (filter (has_flags 256) (m_answer a), filter (has_flags 257) (m_answer a), filter is_rrsig (m_answer a)))
    end).
(** validator.go:339-365 lookupDS: DS records, signatures, the response *)
Definition lookupDS (name : string) : prog (option (list rr * list rr * msg)) :=
  Ask (key_query name TypeDS) (fun res =>
    match res with
    | Err _ => Ret None
    | Drop => Panic
    | Ans a => if N.eqb (m_rcode a) RcodeSuccess
               then Ret (Some (filter is_ds (m_answer a), filter (fun r => is_rrsig r && N.eqb (sig_covered r) TypeDS) (m_answer a), a))
               else Ret (Some ([], [], a))
    end).

(** The loops over signatures that read the clock for each one: validator.go:262-267 and 282-291 *)
Fixpoint anySig (sigs keys rrset : list rr) : prog bool :=
  match sigs with
  | [] => Ret false
  | s :: rest => Now (fun t => if verifyRRSIG s keys rrset t then Ret true else anySig rest keys rrset)
  end.

(** validator.go:198-304 buildChainOfTrust *)
Definition chain_result := (verr + (list rr * list rr))%type.
Definition finish (zone : string) (zsk ksk sigs ds : list rr) : prog chain_result :=
  let trustedKSK := filterKeysByDS ksk ds in
  match trustedKSK with
  | [] => Ret (inl Bogus)
  | _ => do ok <- anySig (filter (fun s => String.eqb (canonicalName (sig_signer s)) zone && N.eqb (sig_covered s) TypeDNSKEY) sigs) trustedKSK (zsk ++ ksk);
         if negb ok then Ret (inl Bogus)
         else Now (fun t => PutKeys zone (zsk ++ ksk) t (Ret (inr (zsk, ksk))))
  end.
Fixpoint chain (fuel : nat) (zone : string) : prog chain_result :=
  match fuel with
  | O => Fuel
  | S fuel =>
      let zone := canonicalName zone in
      GetKeys zone (fun cached =>
        match cached with
        | ([], []) =>
            do keys <- lookupDNSKEY zone;
            match keys with
            | None => Ret (inl Bogus)
            | Some (zsk, ksk, sigs) =>
                match ksk with
                | [] => Ret (inl Bogus)
                | _ =>
                  if String.eqb zone "." then
                    GetDS "." (fun ds => match ds with [] => Ret (inl Bogus) | _ => finish zone zsk ksk sigs ds end)
                  else
                    do dsr <- lookupDS zone;
                    match dsr with
                    | None => Ret (inl Bogus)
                    | Some (ds, dsSigs, resp) =>
                        do parent <- chain fuel (parentZone zone);
                        match parent with
                        | inl e => Ret (inl e)
                        | inr (parentZSK, _) =>
                            match ds with
                            | [] => Now (fun t => if verifyDSDenial resp zone parentZSK t then Ret (inl Insecure) else Ret (inl Bogus))
                            | _ =>
                                match dsSigs with
                                | [] => Ret (inl Bogus)
                                | _ => do ok <- anySig dsSigs parentZSK ds;
                                       if ok then finish zone zsk ksk sigs ds else Ret (inl Bogus)
                                end
                            end
                        end
                    end
                end
            end
        | _ => Ret (inr cached)
        end)
  end.
(** Every step to the parent shortens the name. *)
Definition buildChainOfTrust (zone : string) : prog chain_result := chain (4 + String.length zone) zone.

(** validator.go:139-160 proveNoDS *)
Definition proveNoDS (zone : string) : prog (verr + bool) :=
  do dsr <- lookupDS zone;
  match dsr with
  | None => Ret (inl Bogus)
  | Some (ds, _, resp) =>
      match ds with
      | _ :: _ => Ret (inr false)
      | [] =>
          do parent <- buildChainOfTrust (parentZone zone);
          match parent with
          | inl Insecure => Ret (inr true)
          | inl Bogus => Ret (inl Bogus)
          | inr (parentZSK, _) => Now (fun t => if verifyDSDenial resp zone parentZSK t then Ret (inr true) else Ret (inl Bogus))
          end
      end
  end.
(** validator.go:116-132 checkInsecureDelegation; None is the nil error *)
Fixpoint insecure_loop (zones : list string) : prog (option verr) :=
  match zones with
  | [] => Ret None
  | zone :: rest =>
      do r <- proveNoDS zone;
      match r with
      | inl e => Ret (Some e)
      | inr true => Ret (Some Insecure)
      | inr false => insecure_loop rest
      end
  end.
(** the zones of the loop: the last label, the last two, ... *)
Fixpoint suffix_zones (labels : list string) : list string :=
  match labels with [] => [] | l :: rest => suffix_zones rest ++ [fqdn (joinLabels (l :: rest))] end.
Definition checkInsecureDelegation (name : string) : prog (option verr) :=
  let name := canonicalName name in
  if String.eqb name "." then Ret None else insecure_loop (suffix_zones (splitDomainName name)).

(** validator.go:167-192 validateRRset *)
Fixpoint rrset_loop (owner : string) (rrset sigs : list rr) (lastErr : option verr) : prog (option verr) :=
  match sigs with
  | [] => Ret lastErr
  | sig :: rest =>
      let signer := canonicalName (sig_signer sig) in
      if negb (isSubDomain signer owner) then rrset_loop owner rrset rest (Some Bogus)
      else do c <- buildChainOfTrust signer;
           match c with
           | inl e => rrset_loop owner rrset rest (Some e)
           | inr (zsk, _) => Now (fun t => if verifyRRSIG sig zsk rrset t then Ret None else rrset_loop owner rrset rest (Some Bogus))
           end
  end.
Definition first_name (rrset : list rr) : string := match rrset with r :: _ => rr_name r | [] => EmptyString end.
Definition validateRRset (rrset sigs : list rr) : prog (option verr) := rrset_loop (canonicalName (first_name rrset)) rrset sigs None.

(** denial_existence.go:79-93 rrsetSignedFromAncestor *)
Fixpoint signedFromAncestor (rrset sigs : list rr) (qname : string) : prog bool :=
  match sigs with
  | [] => Ret false
  | sig :: rest =>
      let signer := canonicalName (sig_signer sig) in
      if negb (isSubDomain signer qname) then signedFromAncestor rrset rest qname
      else do c <- buildChainOfTrust signer;
           match c with
           | inl _ => signedFromAncestor rrset rest qname
           | inr (zsk, _) => Now (fun t => if verifyRRSIG sig zsk rrset t then Ret true else signedFromAncestor rrset rest qname)
           end
  end.
(** denial_existence.go:52-72 collectVerifiedDenialRecords: the records that are kept *)
Fixpoint collect (gs : list group) (qname : string) : prog (list rr) :=
  match gs with
  | [] => Ret []
  | g :: rest =>
      if negb (N.eqb (g_type g) TypeNSEC || N.eqb (g_type g) TypeNSEC3) then collect rest qname
      else do ok <- signedFromAncestor (g_rrs g) (g_sigs g) qname;
           if ok then do more <- collect rest qname; Ret (g_rrs g ++ more) else collect rest qname
  end.
(** denial_existence.go:22-46 validateDenial *)
Definition validateDenial (answer : msg) : prog (option verr) :=
  match m_question answer with
  | [] => Ret (Some Bogus)
  | q :: _ =>
      let qname := canonicalName (q_name q) in
      Shuffle (groups (m_ns answer)) (fun gs =>
        do rs <- collect gs qname;
        if nsecProvesDenial (flat_map as_nsec rs) qname (q_type q) (m_rcode answer) then Ret None
        else if nsec3ProvesDenial hashName (flat_map as_nsec3 rs) qname (q_type q) (m_rcode answer) then Ret None
        else do e <- checkInsecureDelegation qname;
             match e with Some e => Ret (Some e) | None => Ret (Some Bogus) end)
  end.
(** validator.go:87-109 Validate *)
Fixpoint validate_groups (gs : list group) : prog (option verr) :=
  match gs with
  | [] => Ret None
  | g :: rest =>
      do e <- match g_sigs g with
              | [] => do e <- checkInsecureDelegation (first_name (g_rrs g));
                      match e with Some e => Ret (Some e) | None => Ret (Some Bogus) end
              | _ => validateRRset (g_rrs g) (g_sigs g)
              end;
      match e with Some e => Ret (Some e) | None => validate_groups rest end
  end.
Definition validate (answer : msg) : prog (option verr) :=
  match m_answer answer with
  | [] => validateDenial answer
  | _ => Shuffle (groups (m_answer answer)) validate_groups
  end.

(** dnssec.go:183-204 filterDNSSECRR *)
Definition keep_rr (qtype : N) (r : rr) : bool :=
  is_opt r || N.eqb (rr_type r) qtype || negb (N.eqb (rr_type r) TypeRRSIG || N.eqb (rr_type r) TypeNSEC || N.eqb (rr_type r) TypeNSEC3).
Definition filterDNSSECRR (rrs : list rr) (qtype : N) : list rr := filter (keep_rr qtype) rrs.
(** dnssec.go:156-179 stripDNSSEC *)
Definition stripDNSSEC (answer : msg) (clientSetDo clientHadEdns0 : bool) (qtype : N) : msg :=
  if clientSetDo then answer
  else
    let a := set_answer (filterDNSSECRR (m_answer answer) qtype) answer in
    let a := set_ns (filterDNSSECRR (m_ns a) qtype) a in
    let a := set_extra (filterDNSSECRR (m_extra a) qtype) a in
    if negb clientHadEdns0 then set_extra (filter (fun r => negb (is_opt r)) (m_extra a)) a
    else update_edns0 (opt_set_do false) a.

(** dnssec.go:101-152 Resolve *)
Definition upstream_query (q : msg) : msg :=
  match is_edns0 q with
  | None => set_edns0 4096 true q
  | Some _ => update_edns0 (fun o => opt_set_do true (opt_set_udpsize 4096 o)) q
  end.
Definition had_edns0 (q : msg) : bool := match is_edns0 q with Some _ => true | None => false end.
Definition set_do (q : msg) : bool := match is_edns0 q with Some o => opt_do o | None => false end.
Definition after_answer (logOnly : bool) (q a : msg) (qtype : N) : prog result :=
  let strip m := stripDNSSEC m (set_do q) (had_edns0 q) qtype in
  if negb (N.eqb (m_rcode a) RcodeSuccess) && negb (N.eqb (m_rcode a) RcodeNameError) then Ret (Ans (strip a))
  else do e <- validate a;
       match e with
       | None => Ret (Ans (strip (set_ad true a)))
       | Some Insecure => Ret (Ans (strip a))
       | Some Bogus => if negb logOnly then Ret (Ans (servfail q)) else Ret (Ans (strip a))
       end.
Definition resolve (logOnly : bool) (q : msg) : prog result :=
  match m_question q with
  | [] => Panic
  | qu :: _ => Ask (upstream_query q) (fun res => match res with Ans a => after_answer logOnly q a (q_type qu) | other => Ret other end)
  end.
End VALIDATOR.

(** ** Running many programs at a time *)
Record sys (R : Type) := Sys { s_time : N; s_store : store; s_threads : list (prog R) }.
Arguments Sys {R}. Arguments s_time {R}. Arguments s_store {R}. Arguments s_threads {R}.
(** One step of one program: what it gets from its surroundings at time t with the given store. W holds the answers that the resolver may
    give to each query; adversarial answers are those of an arbitrary W. *)
Inductive pstep {R} (W : msg -> result -> Prop) (t : N) (s : store) : prog R -> store -> prog R -> Prop :=
| st_ask q k a : W q a -> pstep W t s (Ask q k) s (k a)
| st_now k : pstep W t s (Now k) s (k t)
| st_get z k : pstep W t s (GetKeys z k) s (k (getDNSKEY s t z))
| st_put z ks t0 k : pstep W t s (PutKeys z ks t0 k) (addDNSKEY s t0 z ks) k
| st_ds z k : pstep W t s (GetDS z k) s (k (getDS s t z))
| st_shuffle l k l' : Permutation l l' -> pstep W t s (Shuffle l k) s (k l').
Inductive step {R} (W : msg -> result -> Prop) : sys R -> sys R -> Prop :=
| step_time t t' s ts : t <= t' -> step W (Sys t s ts) (Sys t' s ts)
| step_prog t s ts1 p ts2 s' p' : pstep W t s p s' p' -> step W (Sys t s (ts1 ++ p :: ts2)) (Sys t s' (ts1 ++ p' :: ts2)).
Inductive steps {R} (W : msg -> result -> Prop) : sys R -> sys R -> Prop :=
| steps_refl s : steps W s s
| steps_step s s' s'' : steps W s s' -> step W s' s'' -> steps W s s''.
