(** Words for the ODoH client. *)
From Verif Require Import Base Bytes Client_model OdohC_model Odoh_model.
Local Open Scope string_scope.
(** The values a key has in a list of parameters, in order *)
Definition values (k : string) (l : list (string * string)) : list string := map snd (filter (fun p => String.eqb k (fst p)) l).
(** A request as the proxy of C66 sees it; the client sets the content type *)
Definition at_proxy (remote : bytes) (r : hreq) : preq :=
  let p := ParseQuery (url_query (hq_url r)) in
  PReq remote (hq_method r) "application/oblivious-dns-message" (Get "targethost" p) (Get "targetpath" p) (hq_body r) false.
(** The characters that have no meaning of their own in a query string *)
Definition safe (c : ascii) : Prop := exists n, c = ascii_of_N n /\ (48 <= n <= 57 \/ 65 <= n <= 90 \/ 97 <= n <= 122 \/ n = 45 \/ n = 95 \/ n = 46 \/ n = 126 \/ n = 37 \/ n = 43)%N.
(** The response [f] brings a list without any configuration. *)
Definition brings_none {cfg} (unmarshal : bytes -> option (list cfg)) (f : option hresp) : Prop :=
  exists r, f = Some r /\ hr_broken r = false /\ (length (hr_body r) <= N.to_nat 66047)%nat /\ unmarshal (hr_body r) = Some [].
(** The response [f] brings the key [c]: it arrives as a whole, is not too large, and [c] is the first configuration in it. *)
Definition gives {cfg} (unmarshal : bytes -> option (list cfg)) (f : option hresp) (c : cfg) : Prop :=
  exists r cs, f = Some r /\ hr_broken r = false /\ (length (hr_body r) <= N.to_nat 66047)%nat /\ unmarshal (hr_body r) = Some (c :: cs).
