(** Lemmas about host names. *)
From Verif Require Import Base Base_proofs Hostname_model Hostname_spec.
From Coq Require Import ZifyBool ZifyNat ZifyN.
Local Open Scope nat_scope.

Definition option_eq_dec_nat (a b : option nat) : {a = b} + {a <> b}.
Proof. decide equality. apply Nat.eq_dec. Defined.

(** ** Characters, by going through all 256 *)
Lemma forall_ascii (f : ascii -> bool) : forallb f (map ascii_of_nat (seq 0 256)) = true -> forall c, f c = true.
Proof.
  intros H c. rewrite forallb_forall in H. apply H. rewrite <- (ascii_nat_embedding c). apply in_map, in_seq.
  pose proof (nat_ascii_bounded c). lia.
Qed.
Lemma host_char_iff c : host_char c = true <-> is_ldh c.
Proof.
  unfold is_ldh. set (l := list_ascii_of_string _).
  assert (G : Bool.eqb (host_char c) (existsb (Ascii.eqb c) l) = true) by (revert c; apply (forall_ascii (fun c => Bool.eqb (host_char c) (existsb (Ascii.eqb c) l))); vm_compute; reflexivity).
  apply Bool.eqb_prop in G. rewrite G, existsb_exists. split.
  - intros (d & Hd & E). apply Ascii.eqb_eq in E. subst d. exact Hd.
  - intros H. exists c. split; [exact H|apply Ascii.eqb_refl].
Qed.
Lemma digit_iff c : ((N_of_ascii c <? 48) || (57 <? N_of_ascii c))%N = false <-> is_digit c.
Proof.
  unfold is_digit. set (l := list_ascii_of_string _).
  assert (G : Bool.eqb (negb ((N_of_ascii c <? 48) || (57 <? N_of_ascii c))%N) (existsb (Ascii.eqb c) l) = true)
    by (revert c; apply (forall_ascii (fun c => Bool.eqb (negb ((N_of_ascii c <? 48) || (57 <? N_of_ascii c))%N) (existsb (Ascii.eqb c) l))); vm_compute; reflexivity).
  apply Bool.eqb_prop in G. rewrite <- negb_true_iff, G, existsb_exists. split.
  - intros (d & Hd & E). apply Ascii.eqb_eq in E. exists d. split; assumption.
  - intros (d & Hd & ->). exists d. split; [exact Hd|apply Ascii.eqb_refl].
Qed.
Lemma digit_index c : index 0 (String c "") "0123456789" =
  if ((48 <=? N_of_ascii c) && (N_of_ascii c <=? 57))%N then Some (N.to_nat (N_of_ascii c - 48)) else None.
Proof.
  assert (G : (if option_eq_dec_nat (index 0 (String c "") "0123456789") (if ((48 <=? N_of_ascii c) && (N_of_ascii c <=? 57))%N then Some (N.to_nat (N_of_ascii c - 48)) else None) then true else false) = true).
  { revert c. apply (forall_ascii (fun c => if option_eq_dec_nat (index 0 (String c "") "0123456789") (if ((48 <=? N_of_ascii c) && (N_of_ascii c <=? 57))%N then Some (N.to_nat (N_of_ascii c - 48)) else None) then true else false)). vm_compute. reflexivity. }
  destruct (option_eq_dec_nat _ _) as [E|]; [exact E|discriminate G].
Qed.

(** ** Labels *)
Lemma starts_iff l : starts_hyphen l = true <-> exists s, l = String "-" s.
Proof.
  destruct l as [|c l]; cbn [starts_hyphen]; [split; [discriminate|intros (s & E); discriminate E]|].
  rewrite Ascii.eqb_eq. split; [intros ->; exists l; reflexivity|intros (s & E); injection E as -> _; reflexivity].
Qed.
Lemma ends_iff l : ends_hyphen l = true <-> exists s, l = (s ++ "-")%string.
Proof.
  induction l as [|c l IH]; [split; [discriminate|intros (s & E); destruct s; discriminate E]|].
  destruct l as [|d l]; cbn [ends_hyphen].
  - rewrite Ascii.eqb_eq. split; [intros ->; exists ""%string; reflexivity|]. intros ([|x s] & E); [injection E as ->; reflexivity|].
    injection E as _ E. destruct s; discriminate E.
  - cbn [ends_hyphen] in IH. rewrite IH. split; intros (s & E).
    + exists (String c s). rewrite E. reflexivity.
    + destruct s as [|x s]; [discriminate E|]. injection E as _ E. exists s. exact E.
Qed.
Lemma chars_ok_iff l r : l <> ""%string -> r <> ""%string ->
  (chars_ok l r = true <-> starts_hyphen l = false /\ ends_hyphen l = false /\ Forall is_ldh (list_ascii_of_string r)).
Proof.
  intros N. induction r as [|c r IH]; intros NR; [contradiction|]. cbn [chars_ok list_ascii_of_string].
  apply String.eqb_neq in N. rewrite N. destruct (starts_hyphen l), (ends_hyphen l); cbn [orb];
    try (split; [discriminate|intros (A & B & _); discriminate]).
  destruct (host_char c) eqn:H.
  - assert (Hc := proj1 (host_char_iff c) H). destruct r as [|d r].
    + split; [intros _; repeat split; constructor; [exact Hc|constructor]|reflexivity].
    + rewrite IH by discriminate. split; intros (A & B & C); repeat split; [constructor; assumption|inversion C; assumption].
  - split; [discriminate|]. intros (_ & _ & C). inversion C as [|? ? Hc _]. apply host_char_iff in Hc. congruence.
Qed.
Lemma label_iff l : chars_ok l l = true <-> label_ok l.
Proof.
  unfold label_ok. destruct l as [|c l].
  - split; [intros _|reflexivity]. split; [constructor|]. split; [discriminate|]. intros s E. destruct s; discriminate E.
  - rewrite chars_ok_iff by discriminate. split.
    + intros (A & B & C). split; [exact C|]. split; intros s E.
      * assert (X : starts_hyphen (String c l) = true) by (apply starts_iff; exists s; exact E). congruence.
      * assert (X : ends_hyphen (String c l) = true) by (apply ends_iff; exists s; exact E). congruence.
    + intros (C & A & B). split; [|split; [|exact C]].
      * apply not_true_is_false. intros X. apply starts_iff in X. destruct X as (s & E). exact (A s E).
      * apply not_true_is_false. intros X. apply ends_iff in X. destruct X as (s & E). exact (B s E).
Qed.
Lemma nondigit_iff l : has_nondigit l = true <-> exists c, In c (list_ascii_of_string l) /\ ~ is_digit c.
Proof.
  induction l as [|c l IH]; cbn [has_nondigit list_ascii_of_string]; [split; [discriminate|intros (c & [] & _)]|]. cbv zeta.
  destruct ((N_of_ascii c <? 48) || (57 <? N_of_ascii c))%N eqn:E.
  - split; [intros _|reflexivity]. exists c. split; [left; reflexivity|]. intros D. apply digit_iff in D. congruence.
  - apply digit_iff in E. rewrite IH. split; intros (d & Hd & N); exists d; (split; [|exact N]).
    + right. exact Hd.
    + destruct Hd as [<-|Hd]; [contradiction|exact Hd].
Qed.

(** ** Splitting *)
Lemma contains_in c s : contains c s = false <-> ~ In c (list_ascii_of_string s).
Proof.
  induction s as [|d s IH]; cbn [contains list_ascii_of_string In]; [tauto|]. rewrite orb_false_iff, IH, Ascii.eqb_neq. tauto.
Qed.
Lemma dotted_split ls s : dotted ls s <-> ls = split dot s.
Proof.
  split.
  - induction 1 as [l N|l ls s N _ IH].
    + symmetry. apply split_single. apply contains_in, N.
    + change "."%char with dot. rewrite split_app_sep by (apply contains_in, N). rewrite IH. reflexivity.
  - intros ->. assert (F := split_no_sep dot s). rewrite <- (join_split dot s) at 2. assert (NN := split_not_nil dot s).
    induction (split dot s) as [|l ls IH]; [contradiction|]. inversion F as [|? ? Hl F']; subst. destruct ls as [|l2 ls].
    + cbn [join]. constructor. apply contains_in, Hl.
    + rewrite join_cons2. constructor; [apply contains_in, Hl|]. apply IH; [exact F'|discriminate].
Qed.
Lemma trim_some base : trim_suffix dot (base ++ ".") = base.
Proof.
  induction base as [|c base IH]; [reflexivity|]. cbn [append trim_suffix]. destruct (base ++ ".")%string eqn:E; [destruct base; discriminate E|].
  rewrite IH. reflexivity.
Qed.
Lemma trim_none name : (forall base, name <> (base ++ ".")%string) -> trim_suffix dot name = name.
Proof.
  induction name as [|c name IH]; intros H; [reflexivity|]. cbn [trim_suffix]. destruct name as [|d name].
  - destruct (Ascii.eqb_spec c dot) as [->|]; [exfalso; apply (H ""%string); reflexivity|reflexivity].
  - rewrite IH; [reflexivity|]. intros base E. apply (H (String c base)). rewrite E. reflexivity.
Qed.
Lemma ends_dot name : (exists base, name = (base ++ ".")%string) \/ (forall base, name <> (base ++ ".")%string).
Proof.
  induction name as [|c name IH]; [right; intros [|] E; discriminate E|]. destruct name as [|d name].
  - destruct (Ascii.eqb_spec c ".") as [->|N]; [left; exists ""%string; reflexivity|right]. intros [|x base] E; [injection E as E; contradiction|].
    injection E as _ E. destruct base; discriminate E.
  - destruct IH as [(base & E)|N]; [left; exists (String c base); rewrite E; reflexivity|right]. intros [|x base] E; [discriminate E|].
    injection E as _ E. apply (N base E).
Qed.
Lemma labels_split name ls : labels_of name ls <-> ls = split dot (trim_suffix dot name).
Proof.
  unfold labels_of. destruct (ends_dot name) as [(base & ->)|N].
  - rewrite trim_some. split.
    + intros [(b & E & D)|(X & _)]; [|exfalso; exact (X base eq_refl)]. apply dotted_split in D.
      assert (base = b); [|congruence]. rewrite <- (trim_some base), <- (trim_some b), E. reflexivity.
    + intros ->. left. exists base. split; [reflexivity|apply dotted_split; reflexivity].
  - rewrite (trim_none name N). split.
    + intros [(b & E & _)|(_ & D)]; [exfalso; exact (N b E)|apply dotted_split, D].
    + intros ->. right. split; [exact N|apply dotted_split; reflexivity].
Qed.

Theorem hostname_iff name : validHostname name = true <-> host_ok name.
Proof.
  unfold validHostname, host_ok. destruct (String.eqb_spec name "") as [->|N]; [split; [discriminate|intros (X & _); contradiction]|].
  destruct (N.ltb_spec 255 (N.of_nat (String.length name))) as [L|L]; [split; [discriminate|intros (_ & X & _); lia]|].
  cbv zeta. set (labels := split dot (trim_suffix dot name)).
  assert (NN : labels <> []) by apply split_not_nil. rewrite andb_true_iff, forallb_forall. split.
  - intros [A B]. split; [exact N|]. split; [lia|]. exists (removelast labels), (last labels ""%string).
    rewrite <- (app_removelast_last ""%string NN). split; [apply labels_split; reflexivity|]. split.
    + apply Forall_forall. intros x Hx. apply label_iff, A, Hx.
    + apply nondigit_iff, B.
  - intros (_ & _ & ls & l & D & F & C). apply labels_split in D. fold labels in D. rewrite <- D. split.
    + intros x Hx. apply label_iff. rewrite Forall_forall in F. apply F, Hx.
    + rewrite last_last. apply nondigit_iff, C.
Qed.

(** ** Ports *)
Lemma port_from s : forall acc, (acc <= 65535)%N -> ((exists v, parse_uint acc s = Some v) <-> exists v, digits_value acc s = Some v /\ (v <= 65535)%N).
Proof.
  assert (mono : forall s acc v, digits_value acc s = Some v -> (acc <= v)%N).
  { clear. induction s as [|c s IH]; intros acc v E; cbn [digits_value] in E; [injection E as <-; lia|].
    destruct (index 0 (String c "") "0123456789") as [d|]; [|discriminate E]. apply IH in E. lia. }
  induction s as [|c s IH]; intros acc L; cbn [parse_uint digits_value].
  - split; [intros _; exists acc; split; [reflexivity|exact L]|intros _; exists acc; reflexivity].
  - cbv zeta. rewrite digit_index. destruct ((48 <=? N_of_ascii c) && (N_of_ascii c <=? 57))%N; [|split; [intros (v & E); discriminate E|intros (v & E & _); discriminate E]].
    rewrite N2Nat.id. destruct (N.ltb_spec 65535 (acc * 10 + (N_of_ascii c - 48))) as [G|G].
    + split; [intros (v & E); discriminate E|]. intros (v & E & B). apply mono in E. lia.
    + apply IH, G.
Qed.
Lemma port_iff s : (exists v, parse_port s = Some v) <-> port_ok s.
Proof.
  unfold parse_port, port_ok. destruct s as [|c s]; [split; [intros (v & E); discriminate E|intros (X & _); contradiction]|].
  rewrite port_from by discriminate. split; [intros H; split; [discriminate|exact H]|intros (_ & H); exact H].
Qed.
Theorem endpoint_iff splitHostPort isIP addr : validEndpoint splitHostPort isIP addr = true <->
  exists host port, splitHostPort addr = Some (host, port) /\ port_ok port /\ (isIP host = true \/ host_ok host).
Proof.
  unfold validEndpoint. destruct (splitHostPort addr) as [[host port]|]; [|split; [discriminate|intros (h & p & E & _); discriminate E]].
  destruct (parse_port port) as [v|] eqn:P.
  - assert (PO : port_ok port) by (apply port_iff; exists v; exact P). split.
    + intros H. exists host, port. split; [reflexivity|]. split; [exact PO|]. destruct (isIP host); [left; reflexivity|right; apply hostname_iff, H].
    + intros (h & p & E & _ & H). injection E as <- <-. destruct (isIP host); [reflexivity|]. destruct H as [H|H]; [discriminate H|apply hostname_iff, H].
  - split; [discriminate|]. intros (h & p & E & PO & _). injection E as <- <-. apply port_iff in PO. destruct PO as (v & X). congruence.
Qed.

(** Empty labels and long labels are accepted. *)
Lemma empty_label_refuted : validHostname "a..b" = true /\ dotted ["a"; ""; "b"]%string "a..b".
Proof. split; [reflexivity|]. apply dotted_split. reflexivity. Qed.
Lemma long_label_refuted : exists l, String.length l = 64 /\ dotted [l] l /\ validHostname l = true.
Proof.
  exists (string_of_list_ascii (repeat "a"%char 64)). split; [reflexivity|]. split; [apply dotted_split; reflexivity|vm_compute; reflexivity].
Qed.
