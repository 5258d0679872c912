(** Configurations that make sense *)
From Verif Require Import Base Config_model.
From Coq Require Import Relations.

Definition ids (c : config) : list string := map fst (nodes c).
(** The references of an element, and those that must not be empty *)
Definition refs (v : value) : list string := match v with VResolver => [] | VGroup main aux => main ++ aux | VRouter rs => rs end.
Definition needed (v : value) : list string := match v with VResolver => [] | VGroup main _ => main | VRouter rs => rs end.
Definition optional (v : value) : list string := match v with VGroup _ aux => aux | _ => [] end.
Definition refers (c : config) (a b : string) : Prop := exists v, In (a, v) (nodes c) /\ In b (refs v) /\ b <> ""%string.
Record valid (build : string -> bool) (c : config) : Prop := {
  v_ids : NoDup (ids c);
  v_refs : forall a b, refers c a b -> In b (ids c);
  v_needed : forall a v, In (a, v) (nodes c) -> ~ In ""%string (needed v);
  v_acyclic : forall a, ~ clos_trans _ (refers c) a a;
  v_once : forall g main aux, In (g, (main, aux)) (c_groups c) -> NoDup (filter (fun x => negb (String.eqb x "")) (main ++ aux));
  v_build : forall a, In a (ids c) -> build a = true;
  v_boot : c_boot c <> Some false;
  v_listeners : forall l r, In (l, false, r) (c_listeners c) -> In r (ids c) \/ (r = "bootstrap-resolver"%string /\ c_boot c <> None) }.
(** Every element has been given the elements it refers to: [m] is the table of all elements. *)
Definition wired (c : config) (m : list (string * obj)) : Prop :=
  forall a v, In (a, v) (nodes c) -> exists main aux, lookup a m = Some (Obj a main aux) /\
    Forall2 (fun r o => lookup r m = Some o) (needed v) main /\
    Forall2 (fun r o => if String.eqb r "" then o = None else exists x, o = Some x /\ lookup r m = Some x) (optional v) aux.
(** Orders of maps are arbitrary. *)
Definition any_order (ord : nat -> list string -> list string) : Prop := forall n l, Permutation (ord n l) l.
