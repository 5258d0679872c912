(** What a listener's socket should be. *)
From Verif Require Import Base Bytes Net Addr_model Addr_spec XDial_model XDial_spec LSock_model.
Local Open Scope string_scope.

(** The place asked for *)
Definition at_place (l : lconf) (p : place) : Prop :=
  (c_netns l = "" /\ c_xsocket l = "" /\ p = Here) \/ (c_netns l <> "" /\ c_xsocket l = "" /\ p = InNs (c_netns l)) \/
  (c_netns l = "" /\ c_xsocket l <> "" /\ p = XSock (c_xsocket l)).
(** Sockets for both IP versions or for one: Go and XDial_model tell by the last character of the network *)
Definition one_version (network : string) (v : N) : Prop :=
  (v = 4%N /\ ends network "4") \/ (v = 6%N /\ ends network "6") \/ (v = 0%N /\ ~ ends network "4" /\ ~ ends network "6").
(** The same options *)
Definition same_opts (a b : sockopts) : Prop := options a = options b.
(** IP version 4, 6 or either, and not both ways into a namespace *)
Definition valid (l : lconf) : Prop := (c_ipv l = 0 \/ c_ipv l = 4 \/ c_ipv l = 6)%N /\ (c_netns l = "" \/ c_xsocket l = "").
(** All as asked for *)
Definition plain_sock (l : lconf) (t : socktype) (s : sock) : Prop :=
  at_place l (k_place s) /\ k_type s = t /\ one_version (k_net s) (c_ipv l) /\ k_addr s = Text (c_addr l) /\ same_opts (k_opts s) (c_opts l).
(** All but the IP version *)
Definition http_sock (l : lconf) (t : socktype) (a : laddr) (s : sock) : Prop :=
  at_place l (k_place s) /\ k_type s = t /\ one_version (k_net s) 0 /\ k_addr s = a /\ same_opts (k_opts s) (c_opts l).
