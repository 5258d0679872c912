(** Zones and what they contain, independent of the code. Names are in lower case. *)
From Verif Require Import Base Bytes Name_model Name_spec Denial_model.
Open Scope N_scope.

(** A zone: its apex and its owner names with the record types they have. *)
Record zone := Zone { z_apex : name; z_data : list (name * list N) }.
(** n is s or above s *)
Definition suffix (n s : name) : Prop := exists pre, s = pre ++ n.
Definition zone_ok (z : zone) : Prop :=
  NoDup (map fst (z_data z)) /\ In (z_apex z) (map fst (z_data z)) /\
  Forall (fun p => name_ok (fst p) /\ lname (fst p) = fst p /\ suffix (z_apex z) (fst p)) (z_data z).
Definition is_owner (z : zone) (n : name) : Prop := In n (map fst (z_data z)).
Definition has (z : zone) (n : name) (t : N) : Prop := exists ts, In (n, ts) (z_data z) /\ In t ts.
(** A name exists if it or a name below it owns records (RFC 4592). *)
Definition is_node (z : zone) (n : name) : Prop := suffix (z_apex z) n /\ exists o, is_owner z o /\ suffix n o.
(** The closest encloser: the longest existing ancestor (or the name itself) *)
Definition closest (z : zone) (q e : name) : Prop :=
  is_node z e /\ suffix e q /\ forall e', is_node z e' -> suffix e' q -> (length e' <= length e)%nat.
Definition star (e : name) : name := [42] :: e.
(** The zone has records of type t, or an alias, for q: at q, or at the wildcard that applies to it. *)
Definition answers (z : zone) (q : name) (t : N) : Prop :=
  exists t', (t' = t \/ t' = 5) /\ (has z q t' \/ (~ is_node z q /\ exists e, closest z q e /\ has z (star e) t')).

(** An NSEC record of the zone: from an owner to the next one in canonical order, or from the last owner back to the apex. *)
Definition authentic (z : zone) (r : nsec) : Prop := exists o nx ts o' nx',
  In (o, ts) (z_data z) /\ is_owner z nx /\
  name_ok o' /\ lname o' = o /\ n_owner r = show o' /\
  name_ok nx' /\ lname nx' = nx /\ n_next r = show nx' /\
  (forall t, In t (n_types r) <-> In t ts) /\
  ((name_lt o nx /\ forall x, is_owner z x -> ~ (name_lt o x /\ name_lt x nx)) \/
   (nx = z_apex z /\ forall x, is_owner z x -> ~ name_lt o x)).

(** x lies strictly between a and b on the ring of hashes *)
Definition between (a x b : string) : Prop :=
  if str_lt a b then str_lt a x = true /\ str_lt x b = true
  else if String.eqb a b then x <> a
  else str_lt a x = true \/ str_lt x b = true.
Definition uc (b : N) : N := if (97 <=? b) && (b <=? 122) then b - 32 else b.
(** The NSEC3 records of a zone: the parameters, the hash, and the names that take part: all existing names but, with opt-out,
    unsigned delegations. *)
Record chain3 := Chain3 { c_alg : N; c_iter : N; c_salt : string; c_names : list name }.
Section NSEC3.
Variable hashName : string -> N -> N -> string -> string.
Definition hash (c : chain3) (n : name) : string := hashName (show n) (c_alg c) (c_iter c) (c_salt c).
Definition chain_ok (z : zone) (c : chain3) : Prop :=
  (forall n, In n (c_names c) -> is_node z n) /\ In (z_apex z) (c_names c) /\
  (forall m o ts, is_node z m -> ~ In m (c_names c) -> In (o, ts) (z_data z) -> suffix m o -> forall t, In t ts -> t = 2).
(** Hashes of different names differ, and are made of digits and capitals. *)
Definition hash_ok (c : chain3) : Prop :=
  (forall a b, name_ok a -> name_ok b -> lname a = a -> lname b = b -> hash c a = hash c b -> a = b) /\
  (forall a, show_label (bytes_of_string (hash c a)) = hash c a).
Definition authentic3 (z : zone) (c : chain3) (r : nsec3) : Prop := exists n nx hl apex',
  In n (c_names c) /\ In nx (c_names c) /\
  h_hash r = c_alg c /\ h_iter r = c_iter c /\ h_salt r = c_salt c /\
  name_ok (hl :: apex') /\ lname apex' = z_apex z /\ h_owner r = show (hl :: apex') /\ map uc hl = bytes_of_string (hash c n) /\
  h_next r = hash c nx /\
  (forall t, In t (h_types r) <-> has z n t) /\
  (forall m, In m (c_names c) -> ~ between (hash c n) (hash c m) (hash c nx)) /\
  (N.testbit (h_flags r) 0 = false -> forall m, is_node z m -> ~ between (hash c n) (hash c m) (hash c nx)).
End NSEC3.
