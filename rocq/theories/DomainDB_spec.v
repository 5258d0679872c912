(** What a domain blocklist means, independent of the trie. *)
From Verif Require Import Base.
Open Scope string_scope.

(** The three kinds of rules, over the labels of a domain name (most specific first). *)
Inductive rule :=
| Exact (ls : list string)     (* "example.com":   only that name *)
| Apex (ls : list string)      (* ".example.com":  the name and everything below *)
| Below (ls : list string).    (* "*.example.com": only what is below *)

Definition covers (R : rule) (q : list string) : Prop :=
  match R with
  | Exact ls => q = ls
  | Apex ls => exists pre, q = (pre ++ ls)%list
  | Below ls => exists pre, pre <> [] /\ q = (pre ++ ls)%list
  end.

Definition label_ok (l : string) : Prop :=
  l <> "" /\ contains dot l = false /\ contains star l = false.

Definition rule_labels (R : rule) : list string :=
  match R with Exact ls | Apex ls | Below ls => ls end.

(** How a rule is written. *)
Definition rule_text (R : rule) : string :=
  match R with
  | Exact ls => join dot ls
  | Apex ls => "." ++ join dot ls
  | Below ls => "*." ++ join dot ls
  end.

Definition rule_ok (R : rule) : Prop :=
  rule_labels R <> [] /\ Forall label_ok (rule_labels R).

(** In domain-subdomain mode a plain entry also covers everything below it. *)
Definition in_mode (sub : bool) (R : rule) : rule :=
  match R with
  | Exact ls => if sub then Apex ls else Exact ls
  | _ => R
  end.

(** A line of the list, up to surrounding white space, letter case and one trailing dot,
    is the text of a rule. *)
Definition line_rule (sub : bool) (line : string) (R : rule) : Prop :=
  exists R0, rule_ok R0 /\ lower (trim_suffix dot (trim_space line)) = rule_text R0 /\ R = in_mode sub R0.

Definition well_formed (sub : bool) (line : string) : Prop := exists R, line_rule sub line R.

(** The labels of a query name, ignoring case and the final dot. *)
Definition name_labels (name : string) (q : list string) : Prop :=
  q <> [] /\ Forall (fun l => contains dot l = false) q /\
  join dot q = lower (trim_suffix dot name).

(** A misplaced wildcard: '*' somewhere else than as the complete first label. *)
Definition misplaced_star (sub : bool) (line : string) : Prop :=
  exists ls,
    ls <> [] /\ Forall (fun l => contains dot l = false) ls /\
    join dot ls = lower (trim_suffix dot (trim_space line)) /\
    ((exists l, In l ls /\ contains star l = true /\ l <> "*")
     \/ In "*" (tl ls)
     \/ (sub = true /\ ls = ["*"])).
