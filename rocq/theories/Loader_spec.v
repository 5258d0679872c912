(** What lines are, and what a loader is expected to yield *)
From Verif Require Import Base Bytes Loader_model.
Local Open Scope N_scope.

(** The lines of some text: each is ended by a newline, possibly with one carriage return before it; the last one may lack the newline. *)
Inductive ends : list N -> Prop := ends_lf : ends [10] | ends_crlf : ends [13; 10].
Inductive lines : list N -> list rule -> Prop :=
| lines_nil : lines [] []
| lines_last x r : ~ In 10 x -> x <> [] -> (x = r /\ (forall y, x <> y ++ [13]) \/ x = r ++ [13]) -> lines x [r]
| lines_cons r e rest rs : ~ In 10 r -> ends e -> (e = [10] -> forall y, r <> y ++ [13]) -> lines rest rs -> lines (r ++ e ++ rest) (r :: rs).
(** No line has more than the scanner takes: less than [max] bytes, counting a carriage return but not the newline. One that has
    exactly as many is taken if the text ends with it and the reader tells the end together with the data. *)
Definition fits (max : N) (together : bool) (data : list N) : Prop :=
  forall a x b, data = a ++ x ++ b -> ~ In 10 x -> N.of_nat (length x) < max \/ together = true /\ b = [] /\ N.of_nat (length x) = max.
(** The source can be read to its end, and these are its lines. *)
Definition reads (s : source) (rs : list rule) : Prop := s_error s = false /\ fits 65536 (s_together s) (s_data s) /\ lines (s_data s) rs.

(** The outcome of one attempt: from the cache file if this is the first one and there is one, else from the server *)
Definition from_cache (o : options) (first : bool) (w : world) (rs : list rule) : Prop :=
  first = true /\ cacheDir o = true /\ exists s, w_disk w = Some s /\ reads s rs.
Definition from_server (w : world) (rs : list rule) : Prop :=
  exists status body, w_http w = Some (status, body) /\ 200 <= status <= 299 /\ reads body rs.
Definition obtained (o : options) (first : bool) (w : world) (rs : list rule) : Prop :=
  from_cache o first w rs \/ (forall rs', ~ from_cache o first w rs') /\ from_server w rs.
Definition outcome (o : options) (first : bool) (w : world) (x : option (list rule)) : Prop :=
  match x with Some rs => obtained o first w rs | None => forall rs, ~ obtained o first w rs end.
Definition file_outcome (f : option source) (x : option (list rule)) : Prop :=
  match x with Some rs => exists s, f = Some s /\ reads s rs | None => forall s rs, f = Some s -> ~ reads s rs end.
(** The most recent of the outcomes that is not a failure *)
Fixpoint latest {A} (l : list (option A)) (d : A) : A :=
  match l with [] => d | None :: l' => latest l' d | Some x :: l' => latest l' x end.
(** Rules that survive being written to the cache file and read again *)
Definition clean (rs : list rule) : Prop := Forall (fun r => ~ In 10 r /\ (forall y, r <> y ++ [13]) /\ N.of_nat (length r) < 65536) rs.
