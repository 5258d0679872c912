(** The ODoH client (odohclient.go): the target in the URL of the proxy, and the target's key. Of net/url: query strings. *)
From Verif Require Import Base Bytes Dns Client_model Addr_model.
Local Open Scope string_scope.

(** ** net/url *)
Definition hexdig (n : N) : ascii := ascii_of_N (if (n <? 10)%N then 48 + n else 55 + n)%N.
Definition unhex (c : ascii) : option N :=
  let n := N_of_ascii c in
  if ((48 <=? n) && (n <=? 57))%N then Some (n - 48)%N
  else if ((97 <=? n) && (n <=? 102))%N then Some (n - 87)%N
  else if ((65 <=? n) && (n <=? 70))%N then Some (n - 55)%N
  else None.
(** shouldEscape for encodeQueryComponent: letters, digits and - _ . ~ stay *)
Definition plain (c : ascii) : bool :=
  let n := N_of_ascii c in
  ((48 <=? n) && (n <=? 57) || (65 <=? n) && (n <=? 90) || (97 <=? n) && (n <=? 122) || (n =? 45) || (n =? 95) || (n =? 46) || (n =? 126))%N.
Definition esc (c : ascii) : string :=
  if Ascii.eqb c " " then "+"
  else if plain c then String c ""
  else String "%" (String (hexdig (N_of_ascii c / 16)) (String (hexdig (N_of_ascii c mod 16)) "")).
(** url.QueryEscape and url.QueryUnescape *)
Fixpoint QueryEscape (s : string) : string := match s with "" => "" | String c s' => esc c ++ QueryEscape s' end.
Fixpoint QueryUnescape (s : string) : option string :=
  match s with
  | "" => Some ""
  | String c s' =>
      if Ascii.eqb c "%" then
        match s' with
        | String a (String b s'') =>
            match unhex a, unhex b, QueryUnescape s'' with
            | Some x, Some y, Some r => Some (String (ascii_of_N (16 * x + y)) r)
            | _, _, _ => None
            end
        | _ => None
        end
      else option_map (String (if Ascii.eqb c "+" then " " else c)%char) (QueryUnescape s')
  end.
(** One part of a query string, between &; parts that cannot be parsed are left out (URL.Query drops the error) *)
Definition pair (part : string) : list (string * string) :=
  if contains ";" part then []
  else if String.eqb part "" then []
  else let '(k, v) := match cut "=" part with Some (k, v) => (k, v) | None => (part, "") end in
       match QueryUnescape k, QueryUnescape v with Some k', Some v' => [(k', v')] | _, _ => [] end.
(** url.ParseQuery, URL.Query. The map of lists is the list of pairs: what counts is the order of the values of each key. *)
Definition ParseQuery (raw : string) : list (string * string) := flat_map pair (split "&" raw).
(** Values.Get, Values.Add *)
Fixpoint Get (k : string) (l : list (string * string)) : string :=
  match l with [] => "" | (k', v) :: l' => if String.eqb k k' then v else Get k l' end.
Definition Add (k v : string) (l : list (string * string)) : list (string * string) := l ++ [(k, v)].
(** Values.Encode: the keys in order, for each its values in their order: a stable sort *)
Fixpoint insert (p : string * string) (l : list (string * string)) : list (string * string) :=
  match l with
  | [] => [p]
  | q :: l' => if String.leb (fst p) (fst q) then p :: l else q :: insert p l'
  end.
Definition sort (l : list (string * string)) : list (string * string) := fold_right insert [] l.
Definition Encode (l : list (string * string)) : string :=
  join "&" (map (fun p => QueryEscape (fst p) ++ String "=" (QueryEscape (snd p))) (sort l)).
(** url.Parse as far as the query goes: the part after # is cut off, then the query is what follows the first ? *)
Definition no_fragment (u : string) : string := match cut "#" u with Some (a, _) => a | None => u end.
Definition url_base (u : string) : string := match cut "?" (no_fragment u) with Some (a, _) => a | None => no_fragment u end.
Definition url_query (u : string) : string := match cut "?" (no_fragment u) with Some (_, q) => q | None => "" end.

(** ** odohclient.go *)
(** odohclient.go:141-149 customizeRequest: the URL of the request as it is sent. The content type is ODOH_CONTENT_TYPE. *)
Definition customizeRequest (targetName targetPath : string) (u : string) : string :=
  url_base u ++ String "?" (Encode (Add "targetpath" targetPath (Add "targethost" targetName (ParseQuery (url_query u))))).

(** The key of the target. Times are seconds. *)
Section Key.
Variable cfg : Type.
Variable hexdecode : string -> option bytes.
(** odoh.UnmarshalObliviousDoHConfigs: the configurations it could read; their Marshal is never empty: it starts with a length *)
Variable unmarshal : bytes -> option (list cfg).
Record kstate := KState { k_cfg : option cfg; k_expiry : Z }.
Definition kinit : kstate := KState None 0.
(** What the HTTP client returns for the request of refreshTargetKey: None is an error *)
Definition fetched := option hresp.
Inductive kresult := Key (c : cfg) | KErr | KPanic.
Definition day : Z := 86400.
(** odohclient.go:192-215 refreshTargetKey; [t] is the time of line 208. The status is not looked at. *)
Definition refreshTargetKey (f : fetched) (t : Z) : kstate * kresult :=
  match f with
  | None => (KState None 0, KErr)
  | Some r =>
      match readBoundedBody maxDoHResponseSize (hr_body r) (hr_broken r) with
      | None => (KState None 0, KErr)
      | Some b =>
          match unmarshal b with
          | None => (KState None 0, KErr)
          | Some [] => (KState None 0, KPanic)
          | Some (c :: _) => (KState (Some c) (t + day), Key c)
          end
      end
  end.
(** odohclient.go:168-190 getTargetConfig: [t0] is the time of line 186, [t1] that of line 208, [f] what a request would give; the
    third component: was there a request. A panic leaves the state as it was. *)
Definition getTargetConfig (preset : string) (s : kstate) (t0 t1 : Z) (f : fetched) : kstate * kresult * bool :=
  if negb (String.eqb preset "") then
    match hexdecode preset with
    | None => (s, KErr, false)
    | Some b =>
        match unmarshal b with
        | None => (s, KErr, false)
        | Some [] => (s, KPanic, false)
        | Some (c :: _) => (KState (Some c) (k_expiry s), Key c, false)
        end
    end
  else
    match k_cfg s with
    | Some c => if (k_expiry s <? t0)%Z then
                  let '(s', r) := refreshTargetKey f t1 in (match r with KPanic => s | _ => s' end, r, true)
                else (s, Key c, false)
    | None => let '(s', r) := refreshTargetKey f t1 in (match r with KPanic => s | _ => s' end, r, true)
    end.
(** One query after the other (the mutex of line 170): times and answers to requests. The results, latest first. *)
Record kquery := KQuery { q_t0 : Z; q_t1 : Z; q_f : fetched }.
Definition kstep (preset : string) (st : kstate * list (kquery * kresult * bool)) (q : kquery) : kstate * list (kquery * kresult * bool) :=
  let '(s, log) := st in
  let '(s', r, asked) := getTargetConfig preset s (q_t0 q) (q_t1 q) (q_f q) in (s', (q, r, asked) :: log).
Definition kruns (preset : string) (qs : list kquery) : kstate * list (kquery * kresult * bool) := fold_left (kstep preset) qs (kinit, []).
End Key.
Arguments Key {cfg} c. Arguments KErr {cfg}. Arguments KPanic {cfg}.

(** odohclient.go:193 the URL of the key, and the host and port to connect to: the transport of the DoH client for the proxy dials them
    (net/http: port 443 if there is none), dohclient.go:343-349 with the bootstrap address in place of the host *)
Definition key_url (targetName targetPort : string) : string := "https://" ++ targetName ++ ":" ++ targetPort ++ "/.well-known/odohconfigs".
Definition key_dial (bootstrap targetName targetPort : string) : string :=
  let port := if String.eqb targetPort "" then "443" else targetPort in
  JoinHostPort (if String.eqb bootstrap "" then targetName else bootstrap) port.
(** odohclient.go:41-44 NewODoHClient: the URL requests go to *)
Definition proxy_url (proxy target : string) : string := if String.eqb proxy "" then target else proxy.
