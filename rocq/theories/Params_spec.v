(** The parameters of a URL, independent of the code. *)
From Verif Require Import Base Bytes Text_spec Client_model Odoh_model.
Local Open Scope string_scope.

(** A hexadecimal digit *)
Definition hexa (c : ascii) (n : N) : Prop :=
  let a := N_of_ascii c in ((a = 48 + n /\ n < 10) \/ (a = 65 + (n - 10) /\ 10 <= n < 16) \/ (a = 97 + (n - 10) /\ 10 <= n < 16))%N.
(** t is what the escaped text s stands for: + is a space, % and two digits are a character. *)
Inductive unescaped : string -> string -> Prop :=
| U_nil : unescaped "" ""
| U_space s t : unescaped s t -> unescaped (String "+" s) (String " " t)
| U_hex a b x y s t : hexa a x -> hexa b y -> unescaped s t -> unescaped (String "%" (String a (String b s))) (String (ascii_of_N (16 * x + y)) t)
| U_char c s t : c <> "+"%char -> c <> "%"%char -> unescaped s t -> unescaped (String c s) (String c t).
(** What one part of the query, name=value or name alone, stands for *)
Definition param (part : string) (kv : string * string) : Prop :=
  part <> "" /\ ~ occurs ";" part /\
  exists k v, unescaped k (fst kv) /\ unescaped v (snd kv) /\ ~ occurs "=" k /\ (part = k ++ String "=" v \/ (part = k /\ v = "")).
(** All of them in order, leaving out parts that stand for nothing *)
Inductive collected : list string -> list (string * string) -> Prop :=
| C_nil : collected [] []
| C_take p kv ps l : param p kv -> collected ps l -> collected (p :: ps) (kv :: l)
| C_skip p ps l : (forall kv, ~ param p kv) -> collected ps l -> collected (p :: ps) l.
(** What comes before the first c in s, and after it *)
Definition cuts (c : ascii) (s a b : string) : Prop := ~ occurs c a /\ (s = a ++ String c b \/ (s = a /\ b = "")).
(** The URL u has the parameters l after scheme, host and path. *)
Definition given (u base : string) (l : list (string * string)) : Prop :=
  exists whole fragment query ps, cuts "#" u whole fragment /\ cuts "?" whole base query /\ parts "&" query ps /\ collected ps l.
(** The first value of a key, empty if there is none *)
Definition first (k : string) (l : list (string * string)) (v : string) : Prop :=
  (exists a b, l = (a ++ (k, v) :: b)%list /\ ~ In k (map fst a)) \/ (v = "" /\ ~ In k (map fst l)).
(** What the proxy of C66 sees of a request; the client sets the content type. *)
Definition proxy_sees (remote : bytes) (r : hreq) (p : preq) : Prop :=
  exists base l host path, given (hq_url r) base l /\ first "targethost" l host /\ first "targetpath" l path /\
    p = PReq remote (hq_method r) "application/oblivious-dns-message" host path (hq_body r) false.
