(** C48: the canonical order of names. *)
From Verif Require Import Base Name_model Name_spec Name_proofs.
Local Open Scope N_scope.

(** For every pair of strings the comparison is a total preorder that ignores case. *)
Theorem C48_refl : forall a, canonicalNameCmp a a = Eq.
Proof. exact cmp_refl. Qed.
Print Assumptions C48_refl.
Theorem C48_antisym : forall a b, canonicalNameCmp b a = CompOpp (canonicalNameCmp a b).
Proof. exact cmp_sym. Qed.
Print Assumptions C48_antisym.
Theorem C48_trans : forall a b c, canonicalNameCmp a b = Lt -> canonicalNameCmp b c = Lt -> canonicalNameCmp a c = Lt.
Proof. exact cmp_lt_trans. Qed.
Print Assumptions C48_trans.
Theorem C48_congruence : forall a b c, canonicalNameCmp a b = Eq ->
  canonicalNameCmp a c = canonicalNameCmp b c /\ canonicalNameCmp c a = canonicalNameCmp c b.
Proof. exact cmp_eq. Qed.
Print Assumptions C48_congruence.
Theorem C48_case : forall a, canonicalNameCmp a (lower a) = Eq.
Proof. exact cmp_case. Qed.
Print Assumptions C48_case.

(** On names as they come from the wire it is the order of RFC 4034 section 6.1, and equal means the same name. *)
Theorem C48_rfc4034 : forall a b, name_ok a -> name_ok b ->
  (canonicalNameCmp (show a) (show b) = Lt <-> name_lt a b) /\
  (canonicalNameCmp (show a) (show b) = Eq <-> same_name a b) /\
  (canonicalNameCmp (show a) (show b) = Gt <-> name_lt b a).
Proof. exact show_cmp_total. Qed.
Print Assumptions C48_rfc4034.
Theorem C48_parent_first : forall n a, name_ok n -> name_ok a -> below n a -> canonicalNameCmp (show n) (show a) <> Gt.
Proof. exact parent_first. Qed.
Print Assumptions C48_parent_first.
Theorem C48_contiguous : forall n a b c, name_ok n -> name_ok a -> name_ok b -> name_ok c -> below n a -> below n c ->
  canonicalNameCmp (show a) (show b) <> Gt -> canonicalNameCmp (show b) (show c) <> Gt -> below n b.
Proof. exact subtree_contiguous. Qed.
Print Assumptions C48_contiguous.

(** A name written with an escape for a capital letter, which no name read from the wire contains, is compared before it is
    brought to lower case. *)
Theorem C48_escaped_upper_refuted :
  canonicalNameCmp "\065." "a." = Lt /\ show [[97]] = "a."%string /\ show [[65]] = "A."%string /\ labels_from [] "\065." = [[65]].
Proof. exact escaped_upper. Qed.
Print Assumptions C48_escaped_upper_refuted.

(** The example of RFC 4034 section 6.1, in order. *)
Definition rfc_names : list (list (list N)) :=
  let ex := [101; 120; 97; 109; 112; 108; 101] in let z := [122] in let a := [97] in
  [ [ex]; [a; ex]; [[121; 108; 106; 107; 106; 108; 106; 107]; a; ex]; [[90]; a; ex]; [[122; 65; 66; 67]; a; [69; 88; 65; 77; 80; 76; 69]]; [z; ex]; [[1]; z; ex]; [[42]; z; ex]; [[200]; z; ex] ].
Example C48_rfc_example : map show rfc_names =
  ["example."; "a.example."; "yljkjljk.a.example."; "Z.a.example."; "zABC.a.EXAMPLE."; "z.example."; "\001.z.example."; "*.z.example."; "\200.z.example."]%string.
Proof. reflexivity. Qed.
Example C48_rfc_sorted : map (fun p => canonicalNameCmp (show (fst p)) (show (snd p))) (combine rfc_names (tl rfc_names)) = repeat Lt 8.
Proof. vm_compute. reflexivity. Qed.
Example C48_dot_in_label : show [[97; 46; 98]; [99]] = "a\.b.c."%string /\ canonicalNameCmp "a\.b.c." "b.c." = Lt /\ canonicalNameCmp "a\.B.c." "A\046b.C." = Eq.
Proof. vm_compute. repeat split. Qed.
