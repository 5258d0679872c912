From Verif Require Import Base Dns Lua_model.

(** What a query gets for the two values of a script: they count if the first is a message or nil and the second an error or nil; else
    there is an error and no answer. *)
Inductive verdict : lvalue -> lvalue -> lresult -> Prop :=
| V_none : verdict LNil LNil (None, None)
| V_answer m : verdict (LUser (UMsg m)) LNil (Some m, None)
| V_error e : verdict LNil (LUser (UErr e)) (None, Some e)
| V_both m e : verdict (LUser (UMsg m)) (LUser (UErr e)) (Some m, Some e)
| V_bad v1 v2 e : ~ (v1 = LNil \/ exists m, v1 = LUser (UMsg m)) \/ ~ (v2 = LNil \/ exists e, v2 = LUser (UErr e)) -> verdict v1 v2 (None, Some e).
(** Types that can be converted *)
Definition supported (v : lvalue) : Prop := v <> LOther.
(** The number of scripts for a configured lua-concurrency; doc/configuration.md: the default is 4. *)
Definition pool_size (configured n : nat) : Prop := (configured = 0 -> n = 4)%nat /\ (configured <> 0 -> n = configured)%nat.
