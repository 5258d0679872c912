From Verif Require Import Base Base_proofs Bytes Net Net_proofs Cidr_spec Net_spec Addr_model Addr_spec.
Local Open Scope string_scope.

Lemma contains_app c a b : contains c (a ++ b) = contains c a || contains c b.
Proof. induction a as [|d a IH]; cbn; [reflexivity|]. rewrite IH. destruct (Ascii.eqb c d), (Ascii.eqb d c); reflexivity. Qed.
Lemma without_iff c s : contains c s = false <-> without c s.
Proof.
  unfold without. induction s as [|d s IH]; cbn [contains].
  - split; [|reflexivity]. intros _ a b E. destruct a; discriminate.
  - split.
    + intros H a b E. destruct a as [|e a]; cbn in E; injection E as -> E.
      * rewrite ?Ascii.eqb_refl in H. discriminate.
      * apply orb_false_iff in H. destruct H as (_ & H). exact (proj1 IH H a b E).
    + intros H. apply orb_false_iff. split.
      * destruct (Ascii.eqb_spec d c) as [->|N]; [|try reflexivity; destruct (Ascii.eqb_spec c d); congruence]. exfalso. exact (H "" s eq_refl).
      * apply IH. intros a b E. apply (H (String d a) b). cbn. rewrite E. reflexivity.
Qed.
Lemma split_last_none c s : split_last c s = None <-> contains c s = false.
Proof.
  induction s as [|d s IH]; cbn; [split; reflexivity|]. destruct (split_last c s) as [[a b]|].
  - split; [discriminate|]. intros H. apply orb_false_iff in H. destruct H as (_ & H). apply IH in H. discriminate.
  - destruct IH as (IH & _). rewrite (IH eq_refl). rewrite orb_false_r. destruct (Ascii.eqb d c); split; congruence.
Qed.
Lemma split_last_iff c s : forall a b, split_last c s = Some (a, b) <-> s = a ++ String c b /\ contains c b = false.
Proof.
  induction s as [|d s IH]; intros a b; cbn.
  - split; [discriminate|]. intros (E & _). destruct a; discriminate.
  - destruct (split_last c s) as [[x y]|] eqn:L.
    + destruct (proj1 (IH x y) eq_refl) as (E & C). split.
      * intros H. injection H as <- <-. rewrite E. auto.
      * intros (E2 & C2). destruct a as [|e a]; cbn in E2; injection E2 as -> E2.
        -- exfalso. subst b. rewrite E, contains_app in C2. cbn in C2. rewrite Ascii.eqb_refl in C2. cbn in C2. rewrite orb_true_r in C2. discriminate.
        -- assert (Some (x, y) = Some (a, b)) as X by (apply IH; auto). injection X as -> ->. reflexivity.
    + apply split_last_none in L. destruct (Ascii.eqb_spec d c) as [->|N].
      * split; [intros H; injection H as <- <-; auto|]. intros (E & C). destruct a as [|e a]; cbn in E; [assert (s = b) by congruence; subst; reflexivity|]. assert (E2 : s = a ++ String c b) by congruence. clear E. rename E2 into E.
        exfalso. rewrite E, contains_app in L. cbn in L. rewrite Ascii.eqb_refl in L. cbn in L. rewrite orb_true_r in L. discriminate.
      * split; [discriminate|]. intros (E & C). destruct a as [|e a]; cbn in E; [congruence|]. assert (E2 : s = a ++ String c b) by congruence. clear E. rename E2 into E.
        exfalso. rewrite E, contains_app in L. cbn in L. rewrite Ascii.eqb_refl in L. cbn in L. rewrite orb_true_r in L. discriminate.
Qed.
Lemma cut_iff c s : forall a b, cut c s = Some (a, b) <-> s = a ++ String c b /\ contains c a = false.
Proof.
  induction s as [|d s IH]; intros a b; cbn.
  - split; [discriminate|]. intros (E & _). destruct a; discriminate.
  - destruct (Ascii.eqb_spec d c) as [->|N].
    + split; [intros H; injection H as <- <-; auto|]. intros (E & C). destruct a as [|e a]; cbn in E; [assert (s = b) by congruence; subst; reflexivity|]. assert (e = c) by congruence. subst e.
      cbn in C. rewrite Ascii.eqb_refl in C. discriminate.
    + destruct (cut c s) as [[x y]|] eqn:L.
      * destruct (proj1 (IH x y) eq_refl) as (E & C). split.
        -- intros H. injection H as <- <-. rewrite E. split; [reflexivity|]. cbn. rewrite C. destruct (Ascii.eqb_spec d c); [congruence|]. destruct (Ascii.eqb_spec c d); [congruence|]. reflexivity.
        -- intros (E2 & C2). destruct a as [|e a]; cbn in E2; [congruence|]. injection E2 as <- E2. cbn in C2. apply orb_false_iff in C2. destruct C2 as (_ & C2).
           assert (Some (x, y) = Some (a, b)) as X by (apply IH; auto). injection X as -> ->. reflexivity.
      * split; [discriminate|]. intros (E & C). destruct a as [|e a]; cbn in E; [congruence|]. injection E as <- E. cbn in C. apply orb_false_iff in C. destruct C as (_ & C).
        assert (X : None = Some (a, b)) by (apply IH; auto). discriminate.
Qed.
Lemma cut_none c s : cut c s = None <-> contains c s = false.
Proof.
  induction s as [|d s IH]; cbn; [split; reflexivity|]. destruct (Ascii.eqb_spec d c) as [->|N].
  - split; [discriminate|]. rewrite ?Ascii.eqb_refl. discriminate.
  - destruct (Ascii.eqb_spec c d); [congruence|]. cbn [orb]. rewrite <- IH. destruct (cut c s) as [[x y]|]; split; congruence.
Qed.

Definition open_bracket (s : string) : bool := match s with String "[" _ => true | _ => false end.
Lemma open_cases s : (exists r, s = String "[" r) \/ open_bracket s = false.
Proof. destruct s as [|c r]; [right; reflexivity|]. destruct c as [[] [] [] [] [] [] [] []]; try (right; reflexivity). left. eauto. Qed.
Lemma split_plain s h p : open_bracket s = false -> split_last ":" s = Some (h, p) ->
  SplitHostPort s = if contains ":" h then None else if contains "[" s || contains "]" s then None else Some (h, p).
Proof. intros O L. unfold SplitHostPort. rewrite L. destruct s as [|[[] [] [] [] [] [] [] []] r]; cbn in O; try discriminate; reflexivity. Qed.

Lemma split_iff s h p : SplitHostPort s = Some (h, p) <-> hostport s h p.
Proof.
  unfold hostport. rewrite <- !without_iff. split.
  - intros H. assert (N : split_last ":" s <> None) by (unfold SplitHostPort in H; destruct (split_last ":" s); discriminate).
    destruct (split_last ":" s) as [[x y]|] eqn:L; [clear N|congruence]. destruct (proj1 (split_last_iff _ _ _ _) L) as (E & C).
    destruct (open_cases s) as [(r & ->)|O].
    + unfold SplitHostPort in H. rewrite L in H. destruct (cut "]" r) as [[z rest]|] eqn:K; [|discriminate].
      destruct (String.eqb_spec rest (String ":" y)) as [->|]; cbn [negb] in H; [|discriminate].
      destruct (contains "[" r || contains "]" (String ":" y)) eqn:B; [discriminate|]. injection H as <- <-.
      apply cut_iff in K. destruct K as (-> & K). apply orb_false_iff in B. destruct B as (B1 & B2).
      rewrite contains_app in B1. apply orb_false_iff in B1. destruct B1 as (B1 & B3). cbn in B2, B3.
      split; [auto|]. right. reflexivity.
    + rewrite (split_plain s x y O L) in H. destruct (contains ":" x) eqn:CX; [discriminate|].
      destruct (contains "[" s || contains "]" s) eqn:B; [discriminate|]. injection H as <- <-. apply orb_false_iff in B. destruct B as (B1 & B2).
      rewrite E, contains_app in B1, B2. apply orb_false_iff in B1, B2. destruct B1 as (B1 & B3), B2 as (B2 & B4). cbn in B3, B4.
      split; [auto|]. left. auto.
  - intros ((P1 & P2 & P3 & H1 & H2) & [(E & C)|E]).
    + assert (L : split_last ":" s = Some (h, p)) by (apply split_last_iff; auto).
      assert (B1 : contains "[" s = false) by (rewrite E, !contains_app, H1, P2; reflexivity).
      assert (B2 : contains "]" s = false) by (rewrite E, !contains_app, H2, P3; reflexivity).
      destruct (open_cases s) as [(r & ->)|O]; [cbn in B1; discriminate|].
      rewrite (split_plain s h p O L), C, B1, B2. reflexivity.
    + assert (L : split_last ":" s = Some ("[" ++ h ++ "]", p)).
      { apply split_last_iff. split; [|exact P1]. rewrite E, !string_app_assoc. reflexivity. }
      unfold SplitHostPort. rewrite L. subst s. change ("[" ++ h ++ "]:" ++ p) with (String "[" (h ++ "]:" ++ p)). cbv iota beta.
      assert (K : cut "]" (h ++ "]:" ++ p) = Some (h, String ":" p)) by (apply cut_iff; auto).
      rewrite K, String.eqb_refl. cbn [negb]. rewrite !contains_app, H1, P2. cbn [contains orb]. rewrite P3. reflexivity.
Qed.
Lemma join_split_host h p : without ":" p -> without "[" p -> without "]" p -> without "[" h -> without "]" h -> SplitHostPort (JoinHostPort h p) = Some (h, p).
Proof.
  intros A B C D E. apply split_iff. split; [auto|]. unfold JoinHostPort. destruct (contains ":" h) eqn:K; [right; reflexivity|left].
  split; [reflexivity|]. apply without_iff. exact K.
Qed.

Section A.
Variable parseURL : string -> option url.
Notation AWD := (AddressWithDefault parseURL).

Lemma awd_cut addr e t p : templated addr e t ->
  AWD addr p = if contains "/" e then
    match parseURL e with
    | None => addr
    | Some u => (if String.eqb (u_port u) "" then u_with u (JoinHostPort (u_hostname u) p) else u_string u) ++ t
    end
  else if contains ":" e then addr
  else JoinHostPort e p.
Proof.
  intros (E & W & T). unfold AddressWithDefault. apply without_iff in W.
  destruct T as [->|(r & ->)].
  - rewrite string_app_nil_r in E. subst addr. rewrite (proj2 (cut_none _ _) W). reflexivity.
  - assert (K : cut "{" addr = Some (e, r)) by (apply cut_iff; auto). rewrite K. reflexivity.
Qed.
Lemma awd_plain addr e t p : templated addr e t -> without "/" e -> without ":" e -> AWD addr p = e ++ ":" ++ p.
Proof.
  intros T A B. rewrite (awd_cut addr e t p T). apply without_iff in A, B. unfold JoinHostPort. rewrite A, B. reflexivity.
Qed.
Lemma awd_plain_split a p : without "{" a -> without "/" a -> without ":" a -> without "[" a -> without "]" a ->
  without ":" p -> without "[" p -> without "]" p -> SplitHostPort (AWD a p) = Some (a, p).
Proof.
  intros A B C D E F G H. rewrite (awd_plain a a "" p).
  - apply split_iff. split; [auto|left; auto].
  - split; [symmetry; apply string_app_nil_r|auto].
  - exact B.
  - exact C.
Qed.
Lemma awd_kept addr e t p : templated addr e t -> without "/" e -> ~ without ":" e -> AWD addr p = addr.
Proof.
  intros T A B. rewrite (awd_cut addr e t p T). apply without_iff in A. rewrite A.
  destruct (contains ":" e) eqn:K; [reflexivity|]. exfalso. apply B. apply without_iff. exact K.
Qed.
Lemma awd_url addr e t p : templated addr e t -> ~ without "/" e ->
  match parseURL e with
  | None => AWD addr p = addr
  | Some u => (u_port u <> "" -> AWD addr p = u_string u ++ t) /\ (u_port u = "" -> AWD addr p = u_with u (JoinHostPort (u_hostname u) p) ++ t)
  end.
Proof.
  intros T A. rewrite (awd_cut addr e t p T). destruct (contains "/" e) eqn:K; [|exfalso; apply A; apply without_iff; exact K].
  destruct (parseURL e) as [u|]; [|reflexivity]. destruct (String.eqb_spec (u_port u) "") as [E|E]; split; congruence.
Qed.
Lemma awd_twice addr e t p p' : templated addr e t -> without "/" e -> without "{" p -> without "/" p -> AWD (AWD addr p) p' = AWD addr p.
Proof.
  intros T A P1 P2. destruct (contains ":" e) eqn:K.
  - assert (B : ~ without ":" e) by (intros B; apply without_iff in B; congruence). rewrite (awd_kept addr e t p T A B). exact (awd_kept addr e t p' T A B).
  - apply without_iff in K. rewrite (awd_plain addr e t p T A K). destruct T as (_ & W & _). apply without_iff in W, A, P1, P2.
    apply (awd_kept _ (e ++ ":" ++ p) "").
    + split; [symmetry; apply string_app_nil_r|]. split; [|auto]. apply without_iff. rewrite !contains_app, W, P1. reflexivity.
    + apply without_iff. rewrite !contains_app, A, P2. reflexivity.
    + intros H. exact (H e p eq_refl).
Qed.
Lemma awd_ipv6 : exists a, AWD a "53" = a /\ SplitHostPort a = None /\ a = "2001:db8::1".
Proof. exists "2001:db8::1". repeat split. Qed.
Lemma awd_template : AWD "dns.example{?dns}" "443" = "dns.example:443".
Proof. reflexivity. Qed.
End A.

Section L.
Variable parseIP : string -> bytes.
Variable showIP : bytes -> string.
Variable lookup : string -> list bytes.
Definition known (target : string) : option bytes :=
  match SplitHostPort target with Some (h, _) => match parseIP h with [] => None | ip => Some ip end | None => None end.

Lemma select_ok target g v4 v6 : parseIP "" = [] -> (forall s, parseIP s = [] \/ ip_ok (parseIP s)) ->
  local_for (known target) g v4 v6 (selectLocalAddr parseIP target g v4 v6).
Proof.
  intros P0 P. unfold known, selectLocalAddr. destruct (SplitHostPort target) as [[h p]|]; [|rewrite P0; reflexivity].
  specialize (P h). destruct (parseIP h) as [|x l]; [reflexivity|]. destruct P as [P|P]; [discriminate|].
  remember (x :: l) as ip eqn:I. cbn [local_for].
  destruct (v4_or ip P) as [(L & T)|[(M & L & T)|(N & L & T)]]; rewrite T.
  - split; [intros _|intros K; exfalso; apply K; left; exact L]. destruct v4; split; congruence.
  - split; [intros _|intros K; exfalso; apply K; right; exact M]. destruct v4; split; congruence.
  - split; [intros K; exfalso; exact (N K)|intros _]. destruct v6; split; congruence.
Qed.

(** The address connected to: an address stays, a name is replaced by its first address if there is one *)
Lemma resolve_ok address :
  match SplitHostPort address with
  | None => resolveEndpointAddr parseIP showIP lookup address = address
  | Some (h, p) =>
      (parseIP h <> [] \/ lookup h = [] -> resolveEndpointAddr parseIP showIP lookup address = address) /\
      (forall ip l, parseIP h = [] -> lookup h = ip :: l -> resolveEndpointAddr parseIP showIP lookup address = JoinHostPort (showIP ip) p)
  end.
Proof.
  unfold resolveEndpointAddr. destruct (SplitHostPort address) as [[h p]|]; [|reflexivity]. split.
  - intros [H|H]; destruct (parseIP h); try congruence. rewrite H. reflexivity.
  - intros ip l A B. rewrite A, B. reflexivity.
Qed.

Definition plain (s : string) : Prop := without "[" s /\ without "]" s.
Lemma dial_ok address h p ip l g v4 v6 : SplitHostPort address = Some (h, p) -> parseIP h = [] -> lookup h = ip :: l ->
  ip_ok ip -> ip <> [] -> parseIP (showIP ip) = ip -> plain (showIP ip) -> 
  fst (dial parseIP showIP lookup address g v4 v6) = JoinHostPort (showIP ip) p /\
  local_for (Some ip) g v4 v6 (snd (dial parseIP showIP lookup address g v4 v6)).
Proof.
  intros S P L O N R (B1 & B2). pose proof (resolve_ok address) as H. rewrite S in H. destruct H as (_ & H). specialize (H ip l P L).
  unfold dial. cbn [fst snd]. rewrite H. split; [reflexivity|].
  assert (K : SplitHostPort (JoinHostPort (showIP ip) p) = Some (showIP ip, p)).
  { apply split_iff in S. destruct S as ((P1 & P2 & P3 & _) & _). apply join_split_host; auto. }
  unfold selectLocalAddr. rewrite K, R. destruct ip as [|x y]; [congruence|]. remember (x :: y) as ip eqn:I. cbn [local_for].
  destruct (v4_or ip O) as [(Le & T)|[(M & Le & T)|(N' & Le & T)]]; rewrite T.
  - split; [intros _|intros K'; exfalso; apply K'; left; exact Le]. destruct v4; split; congruence.
  - split; [intros _|intros K'; exfalso; apply K'; right; exact M]. destruct v4; split; congruence.
  - split; [intros K'; exfalso; exact (N' K')|intros _]. destruct v6; split; congruence.
Qed.

Variable lookup4 : string -> list bytes.
Notation dials_ := (dials parseIP showIP lookup4).
Lemma dials_known o a l : dials_ o (Some a) l =
  repeat (source showIP (selectLocalAddr parseIP a (s_local o) (s_local4 o) (s_local6 o)), a) (length l).
Proof. induction l as [|x l IH]; [reflexivity|]. cbn [dials Dial length repeat]. rewrite IH. reflexivity. Qed.
Lemma dials_same o x l : exists d, dials_ o None (x :: l) = repeat d (S (length l)) /\ snd d = once parseIP showIP lookup4 o x /\
  let s := selectLocalAddr parseIP (snd d) (s_local o) (s_local4 o) (s_local6 o) in
  (s = [] -> fst d = "") /\ (s <> [] -> fst d = JoinHostPort (showIP s) "0").
Proof.
  eexists. cbn [dials Dial]. rewrite dials_known. split; [reflexivity|]. split; [reflexivity|]. cbv zeta. cbn [fst snd]. unfold source.
  destruct (selectLocalAddr _ _ _ _ _); split; congruence.
Qed.
Lemma once_ok o x h p : SplitHostPort x = Some (h, p) ->
  (s_resolve o = false -> once parseIP showIP lookup4 o x = x) /\
  (parseIP h <> [] -> once parseIP showIP lookup4 o x = x) /\
  (forall ip l, s_resolve o = true -> parseIP h = [] -> lookup4 h = ip :: l -> once parseIP showIP lookup4 o x = JoinHostPort (showIP ip) p).
Proof.
  intros S. unfold once. rewrite S. split; [intros ->; reflexivity|]. split.
  - intros N. destruct (s_resolve o); [|reflexivity]. destruct (parseIP h); [congruence|reflexivity].
  - intros ip l R A B. rewrite R, A, B. reflexivity.
Qed.
Lemma once_leak o x h p : SplitHostPort x = Some (h, p) -> s_resolve o = true -> parseIP h = [] -> lookup4 h = [] ->
  forall l, Forall (fun d => snd d = x) (dials_ o None (x :: l)).
Proof.
  intros S R A B l. destruct (dials_same o x l) as (d & -> & E & _).
  assert (O : once parseIP showIP lookup4 o x = x) by (unfold once; rewrite R, S, A, B; reflexivity).
  clear - E O. induction (S (length l)) as [|n IH]; cbn; constructor; [congruence|exact IH].
Qed.
Lemma local_roundtrip ip : parseIP (showIP ip) = ip -> plain (showIP ip) -> socks5LocalIP parseIP (JoinHostPort (showIP ip) "0") = ip.
Proof.
  intros R (A & B). unfold socks5LocalIP.
  assert (S : SplitHostPort (JoinHostPort (showIP ip) "0") = Some (showIP ip, "0")).
  { apply join_split_host; try assumption; apply without_iff; reflexivity. }
  rewrite S, R. destruct (String.eqb_spec (JoinHostPort (showIP ip) "0") "") as [E|]; [|reflexivity].
  exfalso. unfold JoinHostPort in E. destruct (contains ":" (showIP ip)); [discriminate|]. destruct (showIP ip); discriminate.
Qed.
End L.
