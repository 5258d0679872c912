(** Model of blocklistdb-domain.go: the domain blocklist, as a heap of Go maps. *)
From Verif Require Import Base.
Open Scope string_scope.

(** Outcome of a Go function returning (value, error), with a run-time panic as an
    explicit case. *)
Inductive res (A : Type) : Type :=
| OK (a : A)
| Fail (e : string)
| Panic.
Arguments OK {A} a. Arguments Fail {A} e. Arguments Panic {A}.

(** A Go map as an association list. [mget] is m[k] with the ok flag, [mset] is
    m[k] = v. (Go language semantics, not in the repo.) *)
Section Maps.
  Context {V : Type}.
  Fixpoint mget (k : string) (m : list (string * V)) : option V :=
    match m with
    | [] => None
    | (k', v) :: m' => if String.eqb k k' then Some v else mget k m'
    end.
  Fixpoint mset (k : string) (v : V) (m : list (string * V)) : list (string * V) :=
    match m with
    | [] => [(k, v)]
    | (k', v') :: m' => if String.eqb k k' then (k, v) :: m' else (k', v') :: mset k v m'
    end.
End Maps.

(** blocklistdb-domain.go:30  type node map[string]node
    A node value is nil or a reference to a map on the heap. *)
Definition addr := nat.
Definition hnode := option addr.
Definition hmap := list (string * hnode).

(** The heap: the content of each allocated map and the next unused address. *)
Record heap := { mem : addr -> hmap; next : addr }.

Definition upd (h : heap) (a : addr) (m : hmap) : heap :=
  {| mem := fun b => if Nat.eqb b a then m else mem h b; next := next h |}.
Definition alloc (h : heap) (m : hmap) : heap * addr :=
  (upd {| mem := mem h; next := S (next h) |} (next h) m, next h).

(** Reading through a node; a nil map reads as empty. *)
Definition content (h : heap) (n : hnode) : hmap :=
  match n with None => [] | Some a => mem h a end.

(** n[part] = v, which panics for the nil map. *)
Definition store (h : heap) (n : hnode) (part : string) (v : hnode) : res heap :=
  match n with
  | None => Panic
  | Some a => OK (upd h a (mset part v (mem h a)))
  end.

(** blocklistdb-domain.go:39  const exactKey = "." *)
Definition exactKey : string := ".".

(** The addresses of dotNode, starNode and root (lines 62, 63, 69). *)
Definition dotNode : addr := 0.
Definition starNode : addr := 1.
Definition rootNode : addr := 2.
Definition heap0 : heap :=
  {| mem := fun a => if Nat.eqb a dotNode then [("", None)]
                     else if Nat.eqb a starNode then [("*", None)] else [];
     next := 3 |}.

(** blocklistdb-domain.go:164-177 isSharedShape *)
Definition isSharedShape (h : heap) (n : hnode) : bool :=
  match content h n with
  | [] => match n with None => true | Some _ => false end
  | [kv] =>
      match mget "" [kv] with
      | Some v => match v with None => true | Some _ => false end
      | None => match mget "*" [kv] with
                | Some v => match v with None => true | Some _ => false end
                | None => false
                end
      end
  | _ => false
  end.

(** blocklistdb-domain.go:92 the check on '*' (i0: this is parts[0]) *)
Definition badStar (part : string) (i0 : bool) : bool :=
  contains star part && (negb i0 || negb (Nat.eqb (String.length part) 1)).

(** blocklistdb-domain.go:88-153, the loop over the parts of one rule, from the last
    part to the first. [rp] holds parts[i], parts[i-1], ..., parts[0]. *)
Fixpoint addParts (h : heap) (n : hnode) (rp : list string) : res heap :=
  match rp with
  | [] => OK h
  | part :: rest =>
      let i0 := match rest with [] => true | _ => false end in
      if badStar part i0 then Fail part
      else
        match mget part (content h n) with
        | None =>                                            (* lines 96-110 *)
            match rest with
            | [] => store h n part None                      (* i == 0 *)
            | [p0] =>
                if String.eqb p0 "" then                     (* i == 1 && parts[0] == "" *)
                  match store h n part (Some dotNode) with
                  | OK h1 => addParts h1 (Some dotNode) rest
                  | e => e
                  end
                else if String.eqb p0 "*" then
                  match store h n part (Some starNode) with
                  | OK h1 => addParts h1 (Some starNode) rest
                  | e => e
                  end
                else
                  let '(h0, b) := alloc h [] in
                  match store h0 n part (Some b) with
                  | OK h1 => addParts h1 (Some b) rest
                  | e => e
                  end
            | _ =>
                let '(h0, b) := alloc h [] in
                match store h0 n part (Some b) with
                | OK h1 => addParts h1 (Some b) rest
                | e => e
                end
            end
        | Some sub =>
            match rest with
            | [] =>                                          (* lines 114-137, i == 0 *)
                match content h sub with
                | [] => OK h                                 (* len(subNode) == 0 *)
                | m =>
                    match mget "" m with
                    | Some _ => OK h
                    | None =>
                        if isSharedShape h sub then
                          let '(h0, b) := alloc h m in       (* maps.Clone *)
                          match store h0 n part (Some b) with
                          | OK h1 => store h1 (Some b) exactKey None
                          | e => e
                          end
                        else store h sub exactKey None
                    end
                end
            | _ =>                                           (* lines 139-153 *)
                if isSharedShape h sub then
                  let '(h0, b) :=
                    match sub with
                    | None => alloc h [(exactKey, None)]
                    | Some _ => alloc h (content h sub)      (* maps.Clone *)
                    end in
                  match store h0 n part (Some b) with
                  | OK h1 => addParts h1 (Some b) rest
                  | e => e
                  end
                else addParts h sub rest
            end
        end
  end.

(** blocklistdb-domain.go:71-83, normalization of one line of the list *)
Definition normRule (includeSubdomains : bool) (r : string) : string :=
  let r := lower (trim_suffix dot (trim_space r)) in
  if includeSubdomains && negb (String.eqb r "") && negb (has_prefix "." r) && negb (has_prefix "*." r)
  then "." ++ r else r.

(** blocklistdb-domain.go:70-154, the loop over all rules *)
Fixpoint addRules (includeSubdomains : bool) (h : heap) (rules : list string) : res heap :=
  match rules with
  | [] => OK h
  | r :: rules' =>
      match addParts h (Some rootNode) (rev (split dot (normRule includeSubdomains r))) with
      | OK h' => addRules includeSubdomains h' rules'
      | e => e
      end
  end.

(** blocklistdb-domain.go:54-156 newDomainDB. [loaded] is the result of loader.Load(). *)
Definition newDomainDB (includeSubdomains : bool) (loaded : res (list string)) : res heap :=
  match loaded with
  | OK rules => addRules includeSubdomains heap0 rules
  | Fail e => Fail e
  | Panic => Panic
  end.

(** blocklistdb-domain.go:231-237 matchedDomainParts. The in-place reversal is written [rev]. *)
Definition matchedDomainParts (prefix : string) (p : list string) : string :=
  prefix ++ join dot (rev p).

(** blocklistdb-domain.go:188-223, the walk of Match. [rp] holds parts[i] ... parts[0];
    the result is the reported rule (empty if Match returns nil) and the ok flag. *)
Fixpoint walk (h : heap) (n : hnode) (rp : list string) (matched : list string) : string * bool :=
  match rp with
  | [] =>
      (matchedDomainParts "" matched,
       match content h n with
       | [] => true
       | m => match mget exactKey m with Some _ => true | None => false end
       end)
  | part :: rest =>
      match mget part (content h n) with
      | None => ("", false)
      | Some sub =>
          let matched' := (matched ++ [part])%list in
          match mget "" (content h sub) with
          | Some _ => (matchedDomainParts "." matched', true)
          | None =>
              match mget "*" (content h sub), rest with
              | Some _, _ :: _ => (matchedDomainParts "*." matched', true)
              | _, _ => walk h sub rest matched'
              end
          end
      end
  end.

(** blocklistdb-domain.go:183-224 method Match of DomainDB for the query name *)
Definition domainMatch (h : heap) (name : string) : string * bool :=
  walk h (Some rootNode) (rev (split dot (lower (trim_suffix dot name)))) [].
