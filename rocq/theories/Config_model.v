(** cmd/routedns/main.go, start: from the configuration to resolvers, groups, routers and listeners. *)
From Verif Require Import Base.

(** What an element of the configuration refers to. For a group: the resolvers, and the four optional ones, allowlist, blocklist, limit and
    retry resolver (empty if there is none). Its other settings are not modelled; whether they are all right is [build] below. *)
Inductive value := VResolver | VGroup (main aux : list string) | VRouter (routes : list string).
Record config := Config {
  c_boot : option bool;                        (* a bootstrap resolver is configured; its settings are all right *)
  c_resolvers : list string; c_groups : list (string * (list string * list string)); c_routers : list (string * list string);
  c_listeners : list (string * bool * string)  (* id, is it the admin service, resolver *) }.
Definition nodes (c : config) : list (string * value) :=
  map (fun id => (id, VResolver)) (c_resolvers c) ++ map (fun g => (fst g, VGroup (fst (snd g)) (snd (snd g)))) (c_groups c) ++ map (fun r => (fst r, VRouter (snd r))) (c_routers c).

(** A built element with the elements it was given *)
Inductive obj := Obj (id : string) (main : list obj) (aux : list (option obj)).
Fixpoint lookup (id : string) (m : list (string * obj)) : option obj :=
  match m with [] => None | (i, o) :: m' => if String.eqb i id then Some o else lookup id m' end.
Fixpoint lookups (ids : list string) (m : list (string * obj)) : option (list obj) :=
  match ids with [] => Some [] | i :: ids' => match lookup i m with None => None | Some o => match lookups ids' m with None => None | Some l => Some (o :: l) end end end.
Definition mem (x : string) (l : list string) : bool := existsb (String.eqb x) l.
Fixpoint dedup (l : list string) : list string := match l with [] => [] | x :: l' => if mem x l' then dedup l' else x :: dedup l' end.

(** The graph of github.com/heimdalr/dag, a library outside /repo (its behaviour is taken from the comment at main.go:244 and its
    documentation): AddVertex refuses an id that is there; AddEdge refuses unknown ids, an edge from a vertex to itself, an edge that is there
    and one that closes a cycle. *)
Definition edge := (string * string)%type.
Definition edge_eqb (a b : edge) : bool := String.eqb (fst a) (fst b) && String.eqb (snd a) (snd b).
(** Is there a path of at most n edges *)
Fixpoint reach (n : nat) (E : list edge) (a b : string) : bool :=
  String.eqb a b || match n with O => false | S n' => existsb (fun e => String.eqb (fst e) a && reach n' E (snd e) b) E end.
(** main.go:215-240 *)
Fixpoint addVertices (l : list (string * value)) (V : list string) : option (list string) :=
  match l with [] => Some V | (id, _) :: l' => if mem id V then None else addVertices l' (V ++ [id]) end.
(** main.go:227, 229-242. The order of the edges of a router is that of a map. *)
Definition edges_of (n : string * value) : list edge :=
  match snd n with VResolver => [] | VGroup main aux => map (pair (fst n)) (main ++ aux) | VRouter rs => map (pair (fst n)) (dedup rs) end.
(** main.go:245-254 *)
Fixpoint addEdges (V : list string) (es : list edge) (E : list edge) : option (list edge) :=
  match es with
  | [] => Some E
  | (id, e) :: es' =>
      if String.eqb e "" then addEdges V es' E
      else if negb (mem id V) || negb (mem e V) || String.eqb id e || existsb (edge_eqb (id, e)) E || reach (length E) E e id then None
      else addEdges V es' ((id, e) :: E)
  end.

Section START.
(** Are the other settings of the element all right? *)
Variable build : string -> bool.
(** main.go:475-485, 599-602, 651, 866, 905, 942, 1010 and 1088-1107. A missing optional resolver is nil. *)
Definition instantiate (id : string) (v : value) (m : list (string * obj)) : option obj :=
  match v with
  | VResolver => if build id then Some (Obj id [] []) else None
  | VGroup main aux => match lookups main m with None => None | Some l => if build id then Some (Obj id l (map (fun a => lookup a m) aux)) else None end
  | VRouter rs => match lookups rs m with None => None | Some l => if build id then Some (Obj id l []) else None end
  end.
Definition value_of (id : string) (ns : list (string * value)) : option value := option_map snd (find (fun n => String.eqb (fst n) id) ns).

(** The outcome; [Hangs]: the loop goes on for ever *)
Inductive outcome := Error | Hangs | Started (m : list (string * obj)) (built : list string) (listeners : list (string * option obj)).
(** main.go:259-279, the elements without outgoing edges, in the order of a map *)
Fixpoint round (ns : list (string * value)) (leaves V : list string) (E : list edge) (m : list (string * obj)) (built : list string) : option (list string * list edge * list (string * obj) * list string) :=
  match leaves with
  | [] => Some (V, E, m, built)
  | id :: leaves' =>
      match value_of id ns with
      | None => None
      | Some v => match instantiate id v m with
                  | None => None
                  | Some o => round ns leaves' (filter (fun x => negb (String.eqb x id)) V) (filter (fun e => negb (String.eqb (fst e) id) && negb (String.eqb (snd e) id)) E) ((id, o) :: m) (built ++ [id])
                  end
      end
  end.
Definition leaf (E : list edge) (id : string) : bool := negb (existsb (fun e => String.eqb (fst e) id) E).
(** main.go:257-281; [ord] is the order of the maps. A round that finds no leaf changes nothing, so that the loop never ends. *)
Variable ord : nat -> list string -> list string.
Fixpoint rounds (fuel : nat) (ns : list (string * value)) (V : list string) (E : list edge) (m : list (string * obj)) (built : list string) : option (option (list (string * obj) * list string)) :=
  match V with
  | [] => Some (Some (m, built))
  | _ => match fuel with
         | O => None
         | S fuel' => match round ns (ord fuel (filter (leaf E) V)) V E m built with
                      | None => Some None
                      | Some (V', E', m', built') => rounds fuel' ns V' E' m' built'
                      end
         end
  end.
(** main.go:290-296 *)
Fixpoint listeners (l : list (string * bool * string)) (m : list (string * obj)) : option (list (string * option obj)) :=
  match l with
  | [] => Some []
  | (id, admin, r) :: l' =>
      match lookup r m, admin with
      | None, false => None
      | o, _ => match listeners l' m with None => None | Some ls => Some ((id, o) :: ls) end
      end
  end.
(** [es]: the edges in the order in which they are added *)
Definition start (c : config) (es : list edge) : outcome :=
  match c_boot c with
  | Some false => Error
  | b =>
      let m := match b with Some _ => [("bootstrap-resolver"%string, Obj "bootstrap-resolver" [] [])] | None => [] end in
      match addVertices (nodes c) [] with
      | None => Error
      | Some V =>
          match addEdges V es [] with
          | None => Error
          | Some E =>
              match rounds (length V) (nodes c) V E m [] with
              | None => Hangs
              | Some None => Error
              | Some (Some (m, built)) => match listeners (c_listeners c) m with None => Error | Some ls => Started m built ls end
              end
          end
      end
  end.
End START.
