From Verif Require Import Base Base_proofs Bytes Dns Net Cidr_model Cidr_spec Cidr_proofs2 Net_spec Net_proofs Modifiers_model Modifiers_spec Router_model Router_proofs Listener_model Listener_spec Listener_proofs.
Local Open Scope N_scope.

(** *** Strings *)
Lemma str_app_assoc a b c : ((a ++ b) ++ c = a ++ (b ++ c))%string.
Proof. induction a as [|x a IH]; [reflexivity|]. cbn [String.append]. rewrite IH. reflexivity. Qed.
Lemma contains_mid c x e : contains c (x ++ String c e) = true.
Proof. induction x as [|d x IH]; cbn [String.append contains]; [rewrite Ascii.eqb_refl; reflexivity|]. rewrite IH. apply orb_true_r. Qed.
Lemma after_last_mid c x e : contains c e = false -> after_last c (x ++ String c e) = e.
Proof.
  intros H. induction x as [|d x IH]; cbn [String.append after_last].
  - rewrite H, Ascii.eqb_refl. reflexivity.
  - rewrite contains_mid. exact IH.
Qed.
Lemma last_split c l : contains c l = false \/ exists x e, l = (x ++ String c e)%string /\ contains c e = false.
Proof.
  induction l as [|d l IH]; [left; reflexivity|]. destruct IH as [H|(x & e & -> & H)].
  - cbn [contains]. rewrite H, orb_false_r. destruct (Ascii.eqb_spec d c) as [->|N]; [right|left; reflexivity].
    exists EmptyString, l. split; [reflexivity|exact H].
  - right. exists (String d x), e. split; [reflexivity|exact H].
Qed.
Lemma trim_blank s : trim_space (String " " s) = trim_space s.
Proof. unfold trim_space. cbn [list_ascii_of_string trim_left]. change (is_space " ") with true. reflexivity. Qed.

Lemma concat_last before l : before <> [] -> exists x, String.concat ", " (before ++ [l]) = (x ++ String "," (String " " l))%string.
Proof.
  induction before as [|y before IH]; [intros []; reflexivity|]. intros _. destruct before as [|z before].
  - exists y. reflexivity.
  - destruct IH as [x E]; [discriminate|]. exists (y ++ ", " ++ x)%string.
    change (String.concat ", " ((y :: z :: before) ++ [l])) with (y ++ ", " ++ String.concat ", " ((z :: before) ++ [l]))%string.
    rewrite E, !str_app_assoc. reflexivity.
Qed.

Definition last_of (s : string) : string := if contains "," s then after_last "," s else s.
Lemma last_of_mid x e : contains "," e = false -> last_of (x ++ String "," e) = e.
Proof. intros H. unfold last_of. rewrite contains_mid. apply after_last_mid, H. Qed.

Lemma last_entry_trim lines e : last_entry lines e -> trim_space (last_of (String.concat ", " lines)) = trim_space e.
Proof.
  intros (before & l & -> & C & H). destruct before as [|b before].
  - cbn [app String.concat]. destruct H as [->|[x ->]]; [unfold last_of; rewrite C; reflexivity|rewrite last_of_mid by exact C; reflexivity].
  - destruct (concat_last (b :: before) l) as [y ->]; [discriminate|]. destruct H as [->|[x ->]].
    + rewrite last_of_mid by (cbn [contains]; rewrite C; reflexivity). apply trim_blank.
    + change (y ++ String "," (String " " (x ++ String "," e)))%string with (y ++ ", " ++ x ++ String "," e)%string.
      rewrite <- !str_app_assoc. rewrite last_of_mid by exact C. reflexivity.
Qed.
Lemma last_entry_nonempty lines e : last_entry lines e -> String.concat ", " lines = EmptyString -> e = EmptyString.
Proof.
  intros (before & l & -> & C & H). destruct before as [|b before].
  - cbn [app String.concat]. intros ->. destruct H as [<-|[x E]]; [reflexivity|]. destruct x; discriminate E.
  - destruct (concat_last (b :: before) l) as [y ->]; [discriminate|]. intros E. destruct y; discriminate E.
Qed.
Lemma last_entry_ex lines : lines <> [] -> exists e, last_entry lines e.
Proof.
  intros H. destruct (exists_last H) as (before & l & ->). destruct (last_split "," l) as [C|(x & e & -> & C)].
  - exists l, before, l. split; [reflexivity|]. split; [exact C|left; reflexivity].
  - exists e, before. eexists. split; [reflexivity|]. split; [exact C|right; exists x; reflexivity].
Qed.

(** *** Loopback addresses *)
Lemma ipval4 a b c d : ipval [a;b;c;d] = ((a * 256 + b) * 256 + c) * 256 + d.
Proof. reflexivity. Qed.
Lemma first_octet a b c d : bytes_ok [a;b;c;d] -> (65535 * 2 ^ 32 + ipval [a;b;c;d]) / 2 ^ 24 = 65535 * 2 ^ 8 + a.
Proof.
  intros H. rewrite ipval4. unfold bytes_ok in H. inversion H as [|? ? Ha H1]; subst. inversion H1 as [|? ? Hb H2]; subst. inversion H2 as [|? ? Hc H3]; subst. inversion H3 as [|? ? Hd _]; subst. unfold byte_ok in *.
  symmetry. apply N.div_unique with (r := b * 65536 + c * 256 + d).
  - change (2 ^ 24) with 16777216. lia.
  - change (2 ^ 24) with 16777216. change (2 ^ 32) with 4294967296. change (2 ^ 8) with 256. lia.
Qed.
Lemma loopback_spec x : ip_ok x -> (isLoopback x = true <-> loopback x).
Proof.
  intros O. unfold isLoopback, loopback. destruct (is_v4_dec x O) as [V|V].
  - destruct (canon_v4 x O V) as (L & B & ->). assert (T : to4 x = Some (canon x)).
    { destruct (v4_or x O) as [[_ T]|[(_ & _ & T)|(N & _)]]; [| |contradiction]; unfold canon; rewrite T; reflexivity. }
    rewrite T. destruct (canon x) as [|a [|b [|c [|d [|e l]]]]]; try discriminate L. rewrite first_octet by exact B. rewrite N.eqb_eq. split.
    + intros ->. left. reflexivity.
    + intros [H|H]; [lia|]. change (2 ^ 32) with 4294967296 in H. lia.
  - destruct (canon_v6 x O V) as (_ & L & ->). assert (T : to4 x = None) by (destruct (v4_or x O) as [[L' _]|[(M & _)|(_ & _ & T)]]; [rewrite L in L'; discriminate L'|destruct V; right; exact M|exact T]).
    rewrite T. destruct (list_eq_dec N.eq_dec x [0;0;0;0;0;0;0;0;0;0;0;0;0;0;0;1]) as [->|N].
    + split; [right; reflexivity|reflexivity].
    + split; [discriminate|]. intros [H|H].
      * exfalso. apply V. right. split; [exact L|]. replace (2 ^ 32) with (2 ^ 24 * 2 ^ 8) by reflexivity. rewrite <- N.div_div by discriminate. rewrite H. reflexivity.
      * exfalso. apply N. apply ipval_inj; [exact (proj1 O)|repeat constructor|exact L|exact H].
Qed.

(** *** Client addresses *)
Section Address.
Variable splitHost : string -> string.
Variable parseIP : string -> bytes.
Hypothesis PI : forall s, parseIP s = [] \/ ip_ok (parseIP s).
Hypothesis PE : parseIP EmptyString = [].
Notation address := (extractClientAddress splitHost parseIP).

Lemma address_none r : address None r = parseIP (splitHost (h_remote r)).
Proof. reflexivity. Qed.

Lemma address_some net r : address (Some net) r =
  if (negb (is_nil (parseIP (splitHost (h_remote r)))) && ipnet_contains net (parseIP (splitHost (h_remote r))))%bool then
    let ip := match h_xff r with [] => [] | _ => parseIP (trim_space (last_of (String.concat ", " (h_xff r)))) end in
    if negb (is_nil ip) && negb (isLoopback ip) then ip else parseIP (splitHost (h_remote r))
  else parseIP (splitHost (h_remote r)).
Proof.
  unfold extractClientAddress. cbv zeta. destruct (h_xff r) as [|l ls] eqn:E.
  - cbn [String.concat String.eqb is_nil negb andb]. destruct (_ && _)%bool; reflexivity.
  - fold (last_of (String.concat ", " (l :: ls))). destruct (String.eqb_spec (String.concat ", " (l :: ls)) "") as [Z|Z].
    + rewrite Z. change (trim_space (last_of "")) with EmptyString. rewrite PE. cbn [is_nil negb andb]. destruct (_ && _)%bool; reflexivity.
    + reflexivity.
Qed.

Lemma address_forwarded net r x : let peer := parseIP (splitHost (h_remote r)) in
  peer <> [] -> ipnet_contains net peer = true -> forwarded parseIP (h_xff r) x -> address (Some net) r = x.
Proof.
  intros peer Hp Hn (e & L & -> & Hx & Hl). rewrite address_some. fold peer. rewrite Hn.
  destruct peer as [|b p]; [destruct Hp; reflexivity|]. cbn [is_nil negb andb]. cbv zeta.
  assert (X : match h_xff r with [] => [] | _ => parseIP (trim_space (last_of (String.concat ", " (h_xff r)))) end = parseIP (trim_space e)).
  { rewrite (last_entry_trim _ _ L). destruct (h_xff r) eqn:E; [|reflexivity]. destruct L as (bf & l & E' & _). destruct bf; discriminate E'. }
  rewrite X. destruct (PI (trim_space e)) as [Z|O]; [destruct Hx; exact Z|].
  destruct (isLoopback (parseIP (trim_space e))) eqn:EL; [destruct Hl; apply loopback_spec; assumption|].
  destruct (parseIP (trim_space e)); [destruct Hx; reflexivity|]. reflexivity.
Qed.

Lemma address_peer net r : let peer := parseIP (splitHost (h_remote r)) in
  ~ (peer <> [] /\ ipnet_contains net peer = true /\ exists x, forwarded parseIP (h_xff r) x) -> address (Some net) r = peer.
Proof.
  intros peer N. rewrite address_some. fold peer. destruct (is_nil peer) eqn:Ep; [reflexivity|]. cbn [negb andb].
  destruct (ipnet_contains net peer) eqn:En; [|reflexivity]. cbv zeta.
  lazymatch goal with |- (if ?b then _ else _) = _ => destruct b eqn:E; [|reflexivity] end.
  exfalso. apply N. split; [intros Z; rewrite Z in Ep; discriminate Ep|]. split; [reflexivity|].
  apply andb_true_iff in E. destruct E as [E1 E2]. destruct (h_xff r) as [|l ls]; [discriminate E1|].
  destruct (last_entry_ex (l :: ls)) as [e L]; [discriminate|]. rewrite (last_entry_trim _ _ L) in E1, E2.
  exists (parseIP (trim_space e)), e. split; [exact L|]. split; [reflexivity|].
  destruct (PI (trim_space e)) as [Z|O]; [rewrite Z in E1; discriminate E1|]. split.
  - intros Z. rewrite Z in E1. discriminate E1.
  - intros H. apply loopback_spec in H; [|exact O]. rewrite H in E2. discriminate E2.
Qed.

Lemma address_earlier net r r' e : h_remote r' = h_remote r -> last_entry (h_xff r) e -> last_entry (h_xff r') e ->
  address net r = address net r'.
Proof.
  intros R L L'. destruct net as [net|]; [|rewrite !address_none, R; reflexivity]. rewrite !address_some, R.
  assert (X : forall q, last_entry (h_xff q) e -> match h_xff q with [] => [] | _ => parseIP (trim_space (last_of (String.concat ", " (h_xff q)))) end = parseIP (trim_space e)).
  { intros q Lq. rewrite (last_entry_trim _ _ Lq). destruct (h_xff q) eqn:E; [|reflexivity]. destruct Lq as (bf & l & E' & _). destruct bf; discriminate E'. }
  rewrite (X r L), (X r' L'). reflexivity.
Qed.
Lemma address_ok net r : address net r = [] \/ ip_ok (address net r).
Proof.
  destruct net as [net|]; [|rewrite address_none; apply PI]. rewrite address_some. cbv zeta. destruct (_ && _)%bool; [|apply PI].
  destruct (negb _ && negb _)%bool; [|apply PI]. destruct (h_xff r); [left; reflexivity|apply PI].
Qed.
End Address.

(** *** DoQ *)
Lemma frame_read p rest : N.of_nat (length p) < 65536 -> read_frame (frame p ++ rest) = Some p.
Proof.
  intros H. unfold frame, read_frame. rewrite N.mod_small by exact H. cbn [app].
  rewrite N.mul_comm, <- N.div_mod by discriminate. rewrite Nat2N.id. rewrite app_length.
  rewrite (proj2 (Nat.leb_le _ _)) by lia. rewrite firstn_app, Nat.sub_diag, firstn_all, firstn_O, app_nil_r. reflexivity.
Qed.
Lemma frame_octets p : bytes_ok p -> bytes_ok (frame p).
Proof.
  intros H. unfold frame. pose proof (N.mod_lt (N.of_nat (length p)) 65536 ltac:(discriminate)) as L. constructor.
  - apply N.div_lt_upper_bound; [discriminate|exact L].
  - constructor; [apply N.mod_lt; discriminate|exact H].
Qed.
(** Incomplete input *)
Lemma read_short data : (length data < 2)%nat \/ (exists h l rest, data = h :: l :: rest /\ N.of_nat (length rest) < h * 256 + l) -> read_frame data = None.
Proof.
  intros [H|(h & l & rest & -> & H)].
  - destruct data as [|a [|b r]]; cbn [length] in H; try reflexivity. lia.
  - unfold read_frame. rewrite (proj2 (Nat.leb_gt _ _)) by lia. reflexivity.
Qed.

Lemma keepalive_spec q : opt_wf q -> (has_keepalive q = true <->
  exists pre r post opts, m_extra q = pre ++ r :: post /\ rr_type r = 41 /\ Forall (fun x => rr_type x <> 41) post /\ rr_data r = DOPT opts /\ exists o, In o opts /\ opt_code o = 11).
Proof.
  intros W. unfold has_keepalive. destruct (Modifiers_proofs.is_edns0_cases q) as [[N E]|(pre & r & post & S & E & _)]; rewrite E.
  - split; [discriminate|]. intros (pre & r & post & opts & Eq & T & _). exfalso. unfold no_edns0 in N. rewrite Eq in N. apply Forall_app in N. destruct N as [_ N]. inversion N. contradiction.
  - destruct S as (Eq & T & F). unfold opt_wf in W. assert (D : exists o, rr_data r = DOPT o).
    { rewrite Eq in W. apply Forall_app in W. destruct W as [_ W]. inversion W; subst. auto. }
    destruct D as [opts D]. unfold opt_options. rewrite D, existsb_exists. split.
    + intros (o & I & C). apply N.eqb_eq in C. exists pre, r, post, opts. repeat (split; [assumption|]). exists o. split; assumption.
    + intros (pre' & r' & post' & opts' & Eq' & T' & F' & D' & o & I & C).
      assert (X : r' = r). 
      { pose proof (Modifiers_proofs.is_edns0_cases q) as [[_ Z]|_]; [congruence|].
        assert (Y : is_edns0 q = Some r'); [|congruence].
        unfold is_edns0. rewrite Eq'. clear -T' F'. induction pre' as [|z pre' IH].
        - cbn [app find_opt]. assert (Z : find_opt post' = None) by (induction F' as [|u v Hu _ IHF]; [reflexivity|]; cbn [find_opt]; rewrite IHF; destruct (N.eqb_spec (rr_type u) TypeOPT); [contradiction|reflexivity]).
          rewrite Z, T'. reflexivity.
        - cbn [app find_opt]. rewrite IH. reflexivity. }
      subst r'. rewrite D in D'. injection D' as <-. exists o. split; [exact I|]. apply N.eqb_eq, C.
Qed.

Section Doq.
Variable resolve : msg -> client -> result.
Variable unpack : bytes -> option msg.
Variable pack : msg -> option bytes.
Notation stream := (handleStream resolve unpack pack).

Definition held (hs : handshake) (q : msg) : Prop := isReplayableOpcode (m_opcode q) = false /\ hs = HsNever.
Definition waits (q : msg) : list event := if isReplayableOpcode (m_opcode q) then [] else [Handshake].

Lemma doq_ignored ci hs data :
  (read_frame data = None \/ (exists b, read_frame data = Some b /\ (unpack b = None \/ exists q, unpack b = Some q /\ (m_question q = [] \/ has_keepalive q = true \/ held hs q)))) ->
  stream ci hs data = ([], Silent).
Proof.
  unfold handleStream. intros [->|(b & -> & [->|(q & -> & H)])]; try reflexivity.
  destruct (m_question q) as [|x l]; [reflexivity|]. destruct (has_keepalive q); [reflexivity|].
  destruct H as [H|[H|[H1 H2]]]; try discriminate. rewrite H1, H2. reflexivity.
Qed.
Lemma doq_served ci hs data b q : read_frame data = Some b -> unpack b = Some q -> m_question q <> [] -> has_keepalive q = false -> ~ held hs q ->
  (resolve q ci = Drop -> stream ci hs data = (waits q ++ [Call q ci], Crash)) /\
  (resolve q ci <> Drop -> exists a, outcome q (resolve q ci) a /\
     stream ci hs data = (waits q ++ [Call q ci], match pack a with Some p => Body (frame p) | None => Silent end)).
Proof.
  unfold handleStream, held, waits. intros -> -> Hq -> Hh. destruct (m_question q) as [|x l] eqn:Eq; [destruct Hq; reflexivity|].
  assert (X : (if isReplayableOpcode (m_opcode q) then Some [] else match hs with HsNever => None | _ => Some [Handshake] end) = Some (if isReplayableOpcode (m_opcode q) then [] else [Handshake])).
  { destruct (isReplayableOpcode (m_opcode q)); [reflexivity|]. destruct hs; try reflexivity. destruct Hh. split; reflexivity. }
  rewrite X. cbv zeta. split.
  - intros ->. reflexivity.
  - destruct (resolve q ci) as [a| |e]; intros H; [|destruct H; reflexivity|].
    + exists a. split; [reflexivity|]. destruct (pack a); reflexivity.
    + eexists. split; [apply error_reply_rcode; rewrite Eq; discriminate|]. change RcodeServerFailure with 2. destruct (pack _); reflexivity.
Qed.
Lemma doq_calls ci hs data q c : In (Call q c) (fst (stream ci hs data)) ->
  exists b, read_frame data = Some b /\ unpack b = Some q /\ m_question q <> [] /\ has_keepalive q = false /\ ~ held hs q /\ c = ci /\ fst (stream ci hs data) = waits q ++ [Call q ci].
Proof.
  intros I. destruct (read_frame data) as [b|] eqn:R; [|rewrite doq_ignored in I by (left; exact R); destruct I].
  destruct (unpack b) as [q'|] eqn:U; [|rewrite doq_ignored in I by (right; exists b; split; [exact R|left; exact U]); destruct I].
  destruct (m_question q') as [|x l] eqn:Eq; [rewrite doq_ignored in I by (right; exists b; split; [exact R|right; exists q'; split; [exact U|left; exact Eq]]); destruct I|].
  destruct (has_keepalive q') eqn:K; [rewrite doq_ignored in I by (right; exists b; split; [exact R|right; exists q'; split; [exact U|right; left; exact K]]); destruct I|].
  assert (D : held hs q' \/ ~ held hs q').
  { unfold held. destruct (isReplayableOpcode (m_opcode q')); [right; intros [H _]; discriminate H|]. destruct hs; [right|right|left; split; reflexivity]; intros [_ H]; discriminate H. }
  destruct D as [D|D]; [rewrite doq_ignored in I by (right; exists b; split; [exact R|right; exists q'; split; [exact U|right; right; exact D]]); destruct I|].
  assert (Hq : m_question q' <> []) by (rewrite Eq; discriminate).
  destruct (doq_served ci hs data b q' R U Hq K D) as [A B].
  assert (X : fst (stream ci hs data) = waits q' ++ [Call q' ci]).
  { destruct (resolve q' ci) as [a| |e] eqn:Er; [destruct B as (a' & _ & ->); [discriminate|reflexivity]|rewrite A by reflexivity; reflexivity|destruct B as (a' & _ & ->); [discriminate|reflexivity]]. }
  rewrite X in I. apply in_app_or in I. destruct I as [I|[I|[]]].
  - unfold waits in I. destruct (isReplayableOpcode (m_opcode q')); [destruct I|]. destruct I as [I|[]]. discriminate I.
  - injection I as <- <-. exists b. repeat (split; [first [exact U|exact Hq|exact K|exact D|reflexivity]|]). exact X.
Qed.
End Doq.

Lemma address_proxy splitHost parseIP parseAddr : (forall s, parseIP s = [] \/ ip_ok (parseIP s)) -> parseIP EmptyString = [] -> parse_ok parseAddr ->
  forall text net r, parse_net parseAddr text = Some net ->
  let peer := parseIP (splitHost (h_remote r)) in
  let trusted := peer <> [] /\ exists a p, net_text parseAddr text a p /\ net_has a p peer in
  (forall x, trusted -> forwarded parseIP (h_xff r) x -> extractClientAddress splitHost parseIP (Some net) r = x) /\
  (~ (trusted /\ exists x, forwarded parseIP (h_xff r) x) -> extractClientAddress splitHost parseIP (Some net) r = peer).
Proof.
  intros PI PE PO text net r HN peer trusted. pose proof (has_net parseAddr PO text net peer HN (PI _)) as HH. split.
  - intros x [Hp (a & p & T & Hh)] F. apply address_forwarded; [exact PI|exact PE|exact Hp| |exact F]. apply HH. exists a, p. tauto.
  - intros N. apply address_peer; [exact PI|exact PE|]. intros (Hp & Hn & F). apply N. split; [|exact F]. split; [exact Hp|].
    apply HH in Hn. destruct Hn as (a & p & T & _ & Hh). exists a, p. split; assumption.
Qed.
