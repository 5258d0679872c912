(** The ODoH proxy, odohlistener.go. Quantified: the HTTP client's outcome for a request. Not modelled: logging, TLS and DNS lookups of
    the HTTP client, header fields other than the content type. *)
From Verif Require Import Base Bytes Net Regex_model.
Local Open Scope string_scope.

(** odohclient.go:18-22 *)
Definition ODOH_PROXY_PATH : string := "/proxy".
Definition ODOH_QUERY_PATH : string := "/dns-query".
Definition ODOH_CONFIG_PATH : string := "/.well-known/odohconfigs".
Definition ODOH_CONTENT_TYPE : string := "application/oblivious-dns-message".

(** odohlistener.go:77-88 the handlers registered for a mode. http.ServeMux answers 404 on any other path. *)
Inductive handler := HProxy | HQuery | HConfig.
Definition handlers (mode : string) : list (string * handler) :=
  if String.eqb mode "dual" then [(ODOH_PROXY_PATH, HProxy); (ODOH_QUERY_PATH, HQuery); (ODOH_CONFIG_PATH, HConfig)]
  else if String.eqb mode "proxy" then [(ODOH_PROXY_PATH, HProxy)]
  else if String.eqb mode "target" || String.eqb mode "" then [(ODOH_QUERY_PATH, HQuery); (ODOH_CONFIG_PATH, HConfig)]
  else [].
Fixpoint route (l : list (string * handler)) (path : string) : option handler :=
  match l with [] => None | (p, h) :: l' => if String.eqb p path then Some h else route l' path end.

(** A request to the proxy: address of the client, method, content type, the parameters (first value of each, "" if there is none), the
    octets of the body that arrive, whether reading ends with an error *)
Record preq := PReq { p_remote : bytes; p_method : string; p_ctype : string; p_host : string; p_path : string; p_body : bytes; p_broken : bool }.
(** A request sent on: scheme, host and path of the URL, content type, body. The URL has no port, user, query or fragment. *)
Record fwd := Fwd { f_scheme : string; f_host : string; f_path : string; f_ctype : string; f_body : bytes }.
(** A target's response: status, content type, the octets of the body that arrive, whether reading ends with an error *)
Record tresp := TResp { t_status : N; t_ctype : string; t_body : bytes; t_broken : bool }.
(** What the client of the proxy gets: a status with a text made by the proxy; 200 with a body; nothing as the handler panics *)
Inductive pout := PStatus (n : N) | PBody (ctype : string) (b : bytes) (cut : bool) | PPanic.

(** odohlistener.go:131 the expression ^([a-zA-Z0-9-]+\.)+[a-zA-Z]{2,}$ *)
Definition label_char (c : ascii) : bool := alpha c || digit09 c || Ascii.eqb c "-".
Definition host_regex : regex :=
  Cat (plus (Cat (plus (Cls label_char)) (Cls (Ascii.eqb ".")))) (Cat (Cls alpha) (Cat (Cls alpha) (Star (Cls alpha)))).

(** strings.Contains(s, "..") *)
Fixpoint dotdot (s : string) : bool := match s with "" => false | String _ s' => prefix ".." s || dotdot s' end.

(** io.ReadAll(io.LimitReader(r.Body, 4096)); None is an error *)
Definition read4096 (r : preq) : option bytes :=
  if p_broken r && N.ltb (N.of_nat (length (p_body r))) 4096 then None else Some (firstn (N.to_nat 4096) (p_body r)).

Section Proxy.
(** http.NewRequest and Client.Do: the response, None on an error. With the CheckRedirect of line 68-70 a redirect is a response like
    any other. *)
Variable do_ : fwd -> option tresp.

(** odohlistener.go:170-186 forwardProxyRequest: what is sent and what comes back *)
Definition forwardProxyRequest (host path : string) (body : bytes) (ctype : string) : fwd * option tresp :=
  let f := Fwd "https" host path ctype body in (f, do_ f).
(** net/http checkWriteHeaderCode: WriteHeader panics for a code that does not have three digits. The client accepts 000 to 999. *)
Definition http_error (code : N) : pout := if N.ltb code 100 then PPanic else PStatus code.
(** odohlistener.go:149-167 the end of ODoHproxyHandler *)
Definition relay (o : option tresp) : pout :=
  match o with
  | None => PStatus 500
  | Some t =>
      if negb (N.eqb (t_status t) 200) then http_error (t_status t)
      else if negb (String.eqb (t_ctype t) ODOH_CONTENT_TYPE) then PStatus 502
      else PBody ODOH_CONTENT_TYPE (t_body t) (t_broken t)
  end.
(** odohlistener.go:112-168 ODoHproxyHandler. The networks are those of ListenOptions.AllowedNet; the handler does not look at them. *)
Definition ODoHproxyHandler (allowedNet : list ipnet) (r : preq) : list fwd * pout :=
  if negb (String.eqb (p_method r) "POST") then ([], PStatus 405)
  else if String.eqb (p_ctype r) "" || negb (String.eqb (p_ctype r) ODOH_CONTENT_TYPE) then ([], PStatus 400)
  else if String.eqb (p_host r) "" then ([], PStatus 400)
  else if N.ltb 253 (N.of_nat (String.length (p_host r))) || negb (matchString host_regex (p_host r)) then ([], PStatus 400)
  else if String.eqb (p_path r) "" || N.ltb 1024 (N.of_nat (String.length (p_path r))) || negb (prefix "/" (p_path r)) || dotdot (p_path r) then ([], PStatus 400)
  else match read4096 r with
  | None => ([], PStatus 400)
  | Some b => let '(f, o) := forwardProxyRequest (p_host r) (p_path r) b (p_ctype r) in ([f], relay o)
  end.
End Proxy.
