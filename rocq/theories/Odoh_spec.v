(** What an ODoH proxy may do. *)
From Verif Require Import Base Bytes Odoh_model.
Local Open Scope string_scope.

Definition letter (c : ascii) : Prop := let n := N_of_ascii c in (97 <= n <= 122)%N \/ (65 <= n <= 90)%N.
Definition ldh (c : ascii) : Prop := letter c \/ (let n := N_of_ascii c in (48 <= n <= 57)%N) \/ c = "-"%char.
Definition chars (P : ascii -> Prop) (s : string) : Prop := forall i c, String.get i s = Some c -> P c.
(** A domain name with at least two labels of letters, digits and hyphens, the last of two or more letters *)
Definition domain (s : string) : Prop :=
  exists labels tld, labels <> [] /\ Forall (fun l => l <> "" /\ chars ldh l) labels /\ (2 <= String.length tld)%nat /\ chars letter tld /\
    s = String.concat "." (labels ++ [tld]).
(** A path that starts with a slash and nowhere has two dots in a row *)
Definition safe_path (s : string) : Prop :=
  (exists t, s = "/" ++ t) /\ forall a b, s <> a ++ ".." ++ b.
Definition acceptable (r : preq) : Prop :=
  p_method r = "POST" /\ p_ctype r = "application/oblivious-dns-message" /\
  domain (p_host r) /\ (N.of_nat (String.length (p_host r)) <= 253)%N /\
  safe_path (p_path r) /\ (N.of_nat (String.length (p_path r)) <= 1024)%N /\
  (p_broken r = false \/ 4096 <= N.of_nat (length (p_body r)))%N.
(** The request the target may get: nothing of the client but path and the body's start *)
Definition sent (r : preq) (f : fwd) : Prop :=
  f_scheme f = "https" /\ f_host f = p_host r /\ f_path f = p_path r /\ f_ctype f = "application/oblivious-dns-message" /\
  exists rest, p_body r = (f_body f ++ rest)%list /\ (N.of_nat (length (f_body f)) <= 4096)%N /\ (rest = [] \/ N.of_nat (length (f_body f)) = 4096%N).
