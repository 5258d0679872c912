(** Addresses of endpoints: default ports (static_default_ports.go), the local address of a connection (dnsclient.go) and the SOCKS5
    dialer (socks5.go). Quantified: url.Parse, net.ParseIP, IP.String, name lookups. Not modelled: connecting. *)
From Verif Require Import Base Bytes Net.
Local Open Scope string_scope.

(** Parts of s before and after the last c (strings.LastIndexByte), the first c (IndexByte) *)
Fixpoint split_last (c : ascii) (s : string) : option (string * string) :=
  match s with
  | "" => None
  | String d s' =>
      match split_last c s' with
      | Some (a, b) => Some (String d a, b)
      | None => if Ascii.eqb d c then Some ("", s') else None
      end
  end.
Fixpoint cut (c : ascii) (s : string) : option (string * string) :=
  match s with
  | "" => None
  | String d s' => if Ascii.eqb d c then Some ("", s') else match cut c s' with Some (a, b) => Some (String d a, b) | None => None end
  end.

(** net.SplitHostPort, None is an error (net/ipsock.go of the Go library) *)
Definition SplitHostPort (s : string) : option (string * string) :=
  match split_last ":" s with
  | None => None
  | Some (h, p) =>
      match s with
      | String "[" r =>
          match cut "]" r with
          | None => None
          | Some (x, rest) =>
              if negb (String.eqb rest (String ":" p)) then None
              else if contains "[" r || contains "]" rest then None else Some (x, p)
          end
      | _ => if contains ":" h then None else if contains "[" s || contains "]" s then None else Some (h, p)
      end
  end.
(** net.JoinHostPort *)
Definition JoinHostPort (host port : string) : string :=
  if contains ":" host then "[" ++ host ++ "]:" ++ port else host ++ ":" ++ port.

(** What url.Parse makes of a text: Hostname(), Port(), String(), and String() after the host was replaced *)
Record url := Url { u_hostname : string; u_port : string; u_string : string; u_with : string -> string }.
Section Addr.
Variable parseURL : string -> option url.

(** static_default_ports.go:20-47 AddressWithDefault *)
Definition AddressWithDefault (addr port : string) : string :=
  let '(endpoint, template) := match cut "{" addr with Some (a, b) => (a, "{" ++ b) | None => (addr, "") end in
  if contains "/" endpoint then
    match parseURL endpoint with
    | None => addr
    | Some u => (if String.eqb (u_port u) "" then u_with u (JoinHostPort (u_hostname u) port) else u_string u) ++ template
    end
  else if contains ":" endpoint then addr
  else JoinHostPort endpoint port.

(** net.ParseIP ([] is nil), IP.String, net.LookupIP ([] also for an error) *)
Variable parseIP : string -> bytes.
Variable showIP : bytes -> string.
Variable lookup : string -> list bytes.

(** dnsclient.go:227-240 resolveEndpointAddr *)
Definition resolveEndpointAddr (address : string) : string :=
  match SplitHostPort address with
  | None => address
  | Some (host, port) =>
      match parseIP host with
      | _ :: _ => address
      | [] => match lookup host with [] => address | ip :: _ => JoinHostPort (showIP ip) port end
      end
  end.

(** dnsclient.go:244-256 selectLocalAddr; [] is nil *)
Definition selectLocalAddr (target : string) (localAddr v4 v6 : bytes) : bytes :=
  let host := match SplitHostPort target with Some (h, _) => h | None => "" end in
  match parseIP host with
  | [] => localAddr
  | ip => match to4 ip with
          | Some _ => match v4 with [] => localAddr | _ => v4 end
          | None => match v6 with [] => localAddr | _ => v6 end
          end
  end.

(** dnsclient.go:121-138 the start of GenericDNSClient.Dial without a dialer of its own: address and local address *)
Definition dial (address : string) (localAddr v4 v6 : bytes) : string * bytes :=
  let a := resolveEndpointAddr address in (a, selectLocalAddr a localAddr v4 v6).

(** ** socks5.go *)
(** socks5.go:25-31: the options that matter here *)
Record sopt := SOpt { s_local : bytes; s_local4 : bytes; s_local6 : bytes; s_resolve : bool }.
(** The lookup of line 128 asks for IPv4 addresses only; [] also for an error or a timeout. *)
Variable lookup4 : string -> list bytes.
(** socks5.go:105-143 the function run once: d.addr *)
Definition once (o : sopt) (address : string) : string :=
  if s_resolve o then
    match SplitHostPort address with
    | None => address
    | Some (host, port) =>
        match parseIP host with
        | _ :: _ => address
        | [] => match lookup4 host with [] => address | ip :: _ => JoinHostPort (showIP ip) port end
        end
    end
  else address.
(** socks5.go:146-155 the local address passed on *)
Definition source (l : bytes) : string := match l with [] => "" | _ => JoinHostPort (showIP l) "0" end.
(** socks5.go:104-156 Dial: d.addr after it; the local address passed on ("" for Client.Dial) and the address asked of the proxy *)
Definition Dial (o : sopt) (st : option string) (address : string) : option string * (string * string) :=
  let a := match st with Some a => a | None => once o address end in
  let l := selectLocalAddr a (s_local o) (s_local4 o) (s_local6 o) in
  (Some a, (source l, a)).
Fixpoint dials (o : sopt) (st : option string) (l : list string) : list (string * string) :=
  match l with [] => [] | x :: l' => let '(st', d) := Dial o st x in d :: dials o st' l' end.
(** socks5.go:161-169 socks5LocalIP *)
Definition socks5LocalIP (laddr : string) : bytes :=
  if String.eqb laddr "" then []
  else parseIP (match SplitHostPort laddr with Some (h, _) => h | None => laddr end).
End Addr.
