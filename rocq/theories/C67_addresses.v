(** C67: default ports, local addresses and the SOCKS5 dialer. *)
From Verif Require Import Base Bytes Net Cidr_spec Net_spec Addr_model Addr_spec Addr_proofs Port_proofs.
Local Open Scope string_scope.

(** Go's SplitHostPort as modelled accepts exactly host:port and [host]:port. *)
Theorem C67_split s h p : SplitHostPort s = Some (h, p) <-> hostport s h p.
Proof. exact (split_iff s h p). Qed.
Print Assumptions C67_split.
(** What is put together from host and port can be taken apart. *)
Theorem C67_join h p : without ":" p -> without "[" p -> without "]" p -> without "[" h -> without "]" h -> hostport (JoinHostPort h p) h p.
Proof. exact (join_ok h p). Qed.
Print Assumptions C67_join.

(** A host without a port gets the default port and is read back as host and port. *)
Theorem C67_added parseURL a p : without "{" a -> without "/" a -> without ":" a -> without "[" a -> without "]" a ->
  without ":" p -> without "[" p -> without "]" p -> hostport (AddressWithDefault parseURL a p) a p.
Proof. exact (fun A B C D E F G H => proj1 (split_iff _ _ _) (awd_plain_split parseURL a p A B C D E F G H)). Qed.
Print Assumptions C67_added.

(** A port that is there stays, and so does everything else. *)
Theorem C67_kept parseURL addr e t p : templated addr e t -> without "/" e -> ~ without ":" e -> AddressWithDefault parseURL addr p = addr.
Proof. exact (awd_kept parseURL addr e t p). Qed.
Print Assumptions C67_kept.

(** Of a URL only the host changes, and only if it has no port; the template stays behind it; what is no URL stays as it is. *)
Theorem C67_url parseURL addr e t p : templated addr e t -> ~ without "/" e ->
  match parseURL e with
  | None => AddressWithDefault parseURL addr p = addr
  | Some u => (u_port u <> "" -> AddressWithDefault parseURL addr p = u_string u ++ t) /\
              (u_port u = "" -> AddressWithDefault parseURL addr p = u_with u (JoinHostPort (u_hostname u) p) ++ t)
  end.
Proof. exact (awd_url parseURL addr e t p). Qed.
Print Assumptions C67_url.

(** A second default changes nothing. *)
Theorem C67_twice parseURL addr e t p p' : templated addr e t -> without "/" e -> without "{" p -> without "/" p ->
  AddressWithDefault parseURL (AddressWithDefault parseURL addr p) p' = AddressWithDefault parseURL addr p.
Proof. exact (awd_twice parseURL addr e t p p'). Qed.
Print Assumptions C67_twice.

(** "Every host without a port gets one" fails for a bare IPv6 address. *)
Theorem C67_ipv6_refuted parseURL : exists a, AddressWithDefault parseURL a "53" = a /\ SplitHostPort a = None /\ a = "2001:db8::1".
Proof. exact (awd_ipv6 parseURL). Qed.
Print Assumptions C67_ipv6_refuted.

(** "The template is kept" fails for an endpoint without a slash. *)
Theorem C67_template_refuted parseURL : AddressWithDefault parseURL "dns.example{?dns}" "443" = "dns.example:443".
Proof. exact (awd_template parseURL). Qed.
Print Assumptions C67_template_refuted.

(** The local address is that of the target's family, else the general one. *)
Theorem C67_local parseIP target g v4 v6 : parseIP "" = [] -> (forall s, parseIP s = [] \/ ip_ok (parseIP s)) ->
  local_for (match SplitHostPort target with Some (h, _) => match parseIP h with [] => None | ip => Some ip end | None => None end) g v4 v6
    (selectLocalAddr parseIP target g v4 v6).
Proof. exact (select_ok parseIP target g v4 v6). Qed.
Print Assumptions C67_local.

(** An address, or a name without addresses, is dialled as it is; else the first address of the name with the same port. *)
Theorem C67_resolved parseIP showIP lookup address :
  match SplitHostPort address with
  | None => resolveEndpointAddr parseIP showIP lookup address = address
  | Some (h, p) =>
      (parseIP h <> [] \/ lookup h = [] -> resolveEndpointAddr parseIP showIP lookup address = address) /\
      (forall ip l, parseIP h = [] -> lookup h = ip :: l -> resolveEndpointAddr parseIP showIP lookup address = JoinHostPort (showIP ip) p)
  end.
Proof. exact (resolve_ok parseIP showIP lookup address). Qed.
Print Assumptions C67_resolved.

(** A name is dialled at the address the local address was chosen for. *)
Theorem C67_dial parseIP showIP lookup address h p ip l g v4 v6 :
  SplitHostPort address = Some (h, p) -> parseIP h = [] -> lookup h = ip :: l ->
  ip_ok ip -> ip <> [] -> parseIP (showIP ip) = ip -> without "[" (showIP ip) /\ without "]" (showIP ip) ->
  fst (dial parseIP showIP lookup address g v4 v6) = JoinHostPort (showIP ip) p /\
  local_for (Some ip) g v4 v6 (snd (dial parseIP showIP lookup address g v4 v6)).
Proof. exact (dial_ok parseIP showIP lookup address h p ip l g v4 v6). Qed.
Print Assumptions C67_dial.

(** All connections of a SOCKS5 dialer are to one address, with one local address. *)
Theorem C67_socks parseIP showIP lookup4 o x l : exists d, dials parseIP showIP lookup4 o None (x :: l) = repeat d (S (length l)) /\ snd d = once parseIP showIP lookup4 o x /\
  let s := selectLocalAddr parseIP (snd d) (s_local o) (s_local4 o) (s_local6 o) in
  (s = [] -> fst d = "") /\ (s <> [] -> fst d = JoinHostPort (showIP s) "0").
Proof. exact (dials_same parseIP showIP lookup4 o x l). Qed.
Print Assumptions C67_socks.

(** It is the first address asked for, or the looked up address if local resolution is on and finds one. *)
Theorem C67_socks_once parseIP showIP lookup4 o x h p : SplitHostPort x = Some (h, p) ->
  (s_resolve o = false -> once parseIP showIP lookup4 o x = x) /\
  (parseIP h <> [] -> once parseIP showIP lookup4 o x = x) /\
  (forall ip l, s_resolve o = true -> parseIP h = [] -> lookup4 h = ip :: l -> once parseIP showIP lookup4 o x = JoinHostPort (showIP ip) p).
Proof. exact (once_ok parseIP showIP lookup4 o x h p). Qed.
Print Assumptions C67_socks_once.

(** "With local resolution the name is not sent to the proxy" fails: if the first lookup fails, all connections send it, for good. *)
Theorem C67_socks_refuted parseIP showIP lookup4 o x h p : SplitHostPort x = Some (h, p) -> s_resolve o = true -> parseIP h = [] -> lookup4 h = [] ->
  forall l, Forall (fun d => snd d = x) (dials parseIP showIP lookup4 o None (x :: l)).
Proof. exact (once_leak parseIP showIP lookup4 o x h p). Qed.
Print Assumptions C67_socks_refuted.

(** The local address given to the proxy library arrives at the dial hooks. *)
Theorem C67_socks_local parseIP showIP ip : parseIP (showIP ip) = ip -> without "[" (showIP ip) /\ without "]" (showIP ip) ->
  socks5LocalIP parseIP (JoinHostPort (showIP ip) "0") = ip.
Proof. exact (local_roundtrip parseIP showIP ip). Qed.
Print Assumptions C67_socks_local.

Definition C67_parse (s : string) : bytes := if String.eqb s "192.0.2.1" then [192; 0; 2; 1]%N else if String.eqb s "2001:db8::1" then [32; 1; 13; 184; 0; 0; 0; 0; 0; 0; 0; 0; 0; 0; 0; 1]%N else [].
Definition C67_show (b : bytes) : string := if Nat.eqb (length b) 4 then "192.0.2.1" else "2001:db8::1".
Definition C67_url_ (s : string) : option url := Some (Url "dns.example" "" s (fun h => "https://" ++ h ++ "/dns-query")).
Example C67_ex_default : map (fun a => AddressWithDefault C67_url_ a "443") ["dns.example"; "dns.example:8443"; "[::1]:53"; "https://dns.example/dns-query{?dns}"] =
  ["dns.example:443"; "dns.example:8443"; "[::1]:53"; "https://dns.example:443/dns-query{?dns}"].
Proof. vm_compute. reflexivity. Qed.
Example C67_ex_split : map SplitHostPort ["a:1"; "[::1]:53"; "::1"; "a"; "[a]"; "[a]b:1"; "a:1:2"; ":53"] =
  [Some ("a", "1"); Some ("::1", "53"); None; None; None; None; None; Some ("", "53")].
Proof. vm_compute. reflexivity. Qed.
Example C67_ex_dial : dial C67_parse C67_show (fun _ => [[32; 1; 13; 184; 0; 0; 0; 0; 0; 0; 0; 0; 0; 0; 0; 1]%N]) "dns.example:53" [] [10; 0; 0; 1]%N [1]%N = ("[2001:db8::1]:53", [1]%N).
Proof. vm_compute. reflexivity. Qed.
Example C67_ex_socks : dials C67_parse C67_show (fun _ => [[192; 0; 2; 1]%N]) (SOpt [] [] [] true) None ["dns.example:53"; "dns.example:53"] =
  [("", "192.0.2.1:53"); ("", "192.0.2.1:53")].
Proof. vm_compute. reflexivity. Qed.
Example C67_ex_local : socks5LocalIP C67_parse (JoinHostPort (C67_show [192; 0; 2; 1]%N) "0") = [192; 0; 2; 1]%N.
Proof. vm_compute. reflexivity. Qed.
