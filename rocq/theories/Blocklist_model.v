(** Query, client and response blocklists: blocklist.go, client-blocklist.go,
    response-blocklist-ip.go, response-blocklist-name.go, edns0ede.go.
    A database is what it holds at the time of the lookup; the refresh loops replace it between
    lookups (Refresh_model). Logging and metrics are not modelled. *)
From Verif Require Import Base Bytes Dns Net Lists_model.
Local Open Scope N_scope.

(** The resolvers a blocklist may pass a query to *)
Inductive target := Upstream | AllowlistResolver | BlocklistResolver.
(** A run: the calls made (resolver, query, client) and the outcome *)
Definition run := (list (target * msg * client) * result)%type.

(** edns0ede.go:7-10 EDNS0EDETemplate: the code and the text template, which is given the query
    and the match and may fail. *)
Record edetemplate := EDETemplate { ede_code : N; ede_text : msg -> option (string * string) -> option string }.
(** edns0ede.go:36-66 Apply; [None] as the template is a nil pointer. On an error the message is unchanged. *)
Definition ede_apply (t : option edetemplate) (m : msg) (q : msg) (match_ : option (string * string)) : msg :=
  match t with
  | None => m
  | Some t =>
      match ede_text t q match_ with
      | None => m
      | Some text => update_edns0 (fun o => opt_set_options (opt_options o ++ [EDE (ede_code t) text]) o) (set_edns0 4096 false m)
      end
  end.

Section Resolvers.
Variable resolve : target -> msg -> client -> result.
Definition call (t : target) (q : msg) (ci : client) : run := ([(t, q, ci)], resolve t q ci).
Definition after (t : target) (q : msg) (ci : client) (r : run) : run := ((t, q, ci) :: fst r, snd r).

(** blocklist.go:15 maxPTRResponses *)
Definition maxPTRResponses : nat := 10.
(** blocklist.go:147-173, the spoofed records *)
Definition spoof (x : question) (ips : list bytes) : list rr :=
  flat_map (fun ip =>
    if (match to4 ip with Some _ => true | None => false end) && N.eqb (q_type x) TypeA then
      [RR (q_name x) TypeA (q_class x) 3600 (DA ip)]
    else if Nat.eqb (length ip) 16 && N.eqb (q_type x) TypeAAAA then
      [RR (q_name x) TypeAAAA (q_class x) 3600 (DAAAA ip)]
    else []) ips.
(** blocklist.go:90-189 Resolve. [None] is a panic: no question, or a match without list and rule. *)
Definition blocklist_resolve (allowDB : option (msg -> option mres)) (blockDB : msg -> option mres)
  (hasAllow hasBlock : bool) (t : option edetemplate) (q : msg) (ci : client) : option run :=
  match m_question q with
  | [] => None
  | x :: _ =>
      let rest := match blockDB q with
        | None => None
        | Some r =>
            if negb (mr_ok r) then Some (call Upstream q ci)
            else match mr_match r with
            | None => None
            | Some mt =>
                match N.eqb (q_type x) TypePTR, mr_names r with
                | true, _ :: _ => option_map (fun m => ([], Ans m)) (ptr q (firstn maxPTRResponses (mr_names r)))
                | _, _ =>
                    if hasBlock then Some (call BlocklistResolver q ci)
                    else
                      let answer := set_ra true (set_reply empty_msg q) in
                      match spoof x (mr_ips r) with
                      | [] => Some ([], Ans (set_rcode (ede_apply t answer q (Some mt)) q RcodeNameError))
                      | l => Some ([], Ans (set_answer l answer))
                      end
                end
            end
        end in
      match allowDB with
      | None => rest
      | Some db =>
          match db q with
          | None => None
          | Some r => if mr_ok r then match mr_match r with
                                      | None => None
                                      | Some _ => Some (call (if hasAllow then AllowlistResolver else Upstream) q ci)
                                      end
                      else rest
          end
      end
  end.

(** client-blocklist.go:58-69, the address that is looked up *)
Definition first_ecs (opts : list edns0) : option bytes :=
  fold_right (fun o r => match o with ECS _ _ _ a => Some a | _ => r end) None opts.
Definition client_ip (useECS : bool) (q : msg) (ci : client) : bytes :=
  if useECS then
    match is_edns0 q with
    | None => ci_ip ci
    | Some o => match first_ecs (opt_options o) with Some a => a | None => ci_ip ci end
    end
  else ci_ip ci.
(** client-blocklist.go:57-104 Resolve; the database maps an address to its match. *)
Definition client_resolve (db : bytes -> option (string * string)) (useECS hasBlock : bool) (q : msg) (ci : client) : run :=
  match client_ip useECS q ci with
  | [] => call Upstream q ci
  | ip => match db ip with
          | Some _ => if hasBlock then call BlocklistResolver q ci else ([], Ans (refused q))
          | None => call Upstream q ci
          end
  end.

(** response-blocklist-ip.go:120-128, 171-179, the address of a record *)
Definition rr_ip (r : rr) : option bytes :=
  match rr_data r with DA ip => Some ip | DAAAA ip => Some ip | _ => None end.
Definition is_some {A} (o : option A) : bool := match o with Some _ => true | None => false end.
(** response-blocklist-ip.go:129, 180: ok != r.Inverted *)
Definition ip_hit (db : bytes -> option (string * string)) (inverted : bool) (r : rr) : bool :=
  match rr_ip r with Some ip => negb (Bool.eqb (is_some (db ip)) inverted) | None => false end.
Definition rr_match (db : bytes -> option (string * string)) (r : rr) : option (string * string) :=
  match rr_ip r with Some ip => db ip | None => None end.
Definition sections (a : msg) : list rr := m_answer a ++ m_ns a ++ m_extra a.
(** response-blocklist-ip.go:116-148 blockIfMatch *)
Definition ip_block (db : bytes -> option (string * string)) (inverted hasBlock : bool) (t : option edetemplate) (q a : msg) (ci : client) : run :=
  match find (ip_hit db inverted) (sections a) with
  | None => ([], Ans a)
  | Some r => if hasBlock then call BlocklistResolver q ci
              else ([], Ans (ede_apply t (nxdomain q) q (rr_match db r)))
  end.
(** response-blocklist-ip.go:167-192 filterRR *)
Definition filterRR (db : bytes -> option (string * string)) (inverted : bool) (l : list rr) : list rr :=
  filter (fun r => negb (ip_hit db inverted r)) l.
(** response-blocklist-ip.go:150-165 filterMatch *)
Definition ip_filter (db : bytes -> option (string * string)) (inverted hasBlock : bool) (q a : msg) (ci : client) : run :=
  match filterRR db inverted (m_answer a) with
  | [] => if hasBlock then call BlocklistResolver q ci else ([], Ans (nxdomain q))
  | l => ([], Ans (set_extra (filterRR db inverted (m_extra a)) (set_ns (filterRR db inverted (m_ns a)) (set_answer l a))))
  end.
(** response-blocklist-ip.go:68-80 Resolve *)
Definition rip_resolve (db : bytes -> option (string * string)) (filter_ inverted hasBlock : bool) (t : option edetemplate) (q : msg) (ci : client) : run :=
  match resolve Upstream q ci with
  | Ans a => after Upstream q ci
      (if negb (N.eqb (m_rcode a) RcodeSuccess) then ([], Ans a)
       else if filter_ then ip_filter db inverted hasBlock q a ci
       else ip_block db inverted hasBlock t q a ci)
  | r => ([(Upstream, q, ci)], r)
  end.

(** response-blocklist-name.go:137-147 svcbString; [kv] renders a parameter as key=value *)
Variable kv : N -> string.
Definition svcbString (tgt : string) (params : list N) : string :=
  fold_left (fun s v => (s ++ " " ++ kv v)%string) params tgt.
(** response-blocklist-name.go:92-114, the name of a record *)
Definition rr_text (r : rr) : option string :=
  match rr_data r with
  | DCNAME s => Some s
  | DMX _ s => Some s
  | DNS s => Some s
  | DPTR s => Some s
  | DSRV _ _ _ s => Some s
  | DHTTPS _ tgt p => Some (svcbString tgt p)
  | DTXT l => Some (join " "%char l)
  | DSVCB _ tgt p => Some (svcbString tgt p)
  | DSOA s _ _ _ _ _ _ => Some s
  | _ => None
  end.
(** response-blocklist-name.go:115-116, the message looked up; [id] is the random ID *)
Definition name_msg (id : N) (name : string) : msg :=
  Msg id false 0 false false true false false false 0 [Q name 0 ClassINET] [] [] [].
(** response-blocklist-name.go:89-133 blockIfMatch; [None] is a panic of the database. *)
Fixpoint name_block (db : msg -> option mres) (id : N) (inverted hasBlock : bool) (t : option edetemplate) (q a : msg) (ci : client) (l : list rr) : option run :=
  match l with
  | [] => Some ([], Ans a)
  | r :: l' =>
      match rr_text r with
      | None => name_block db id inverted hasBlock t q a ci l'
      | Some name =>
          match db (name_msg id name) with
          | None => None
          | Some m =>
              if negb (Bool.eqb (mr_ok m) inverted) then
                Some (if hasBlock then call BlocklistResolver q ci
                      else ([], Ans (ede_apply t (nxdomain q) q (mr_match m))))
              else name_block db id inverted hasBlock t q a ci l'
          end
      end
  end.
(** response-blocklist-name.go:52-58 Resolve *)
Definition rname_resolve (db : msg -> option mres) (id : N) (inverted hasBlock : bool) (t : option edetemplate) (q : msg) (ci : client) : option run :=
  match resolve Upstream q ci with
  | Ans a => option_map (after Upstream q ci) (name_block db id inverted hasBlock t q a ci (sections a))
  | r => Some ([(Upstream, q, ci)], r)
  end.
End Resolvers.
