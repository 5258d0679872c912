(** Lemmas about the blocklists. *)
From Verif Require Import Base Base_proofs Bytes Dns Net Net_proofs Cidr_spec Net_spec Modifiers_spec Modifiers_proofs Lists_model Blocklist_model Blocklist_spec.
Local Open Scope N_scope.

Definition ede_of (t : option edetemplate) : option (N * (msg -> option (string * string) -> option string)) :=
  option_map (fun t => (ede_code t, ede_text t)) t.

Lemma ede_apply_reply t q0 rcode an m q mt : reply q0 rcode an [] m -> reply q0 rcode an (error_records (ede_of t) q mt) (ede_apply t m q mt).
Proof.
  intros H. unfold ede_apply, error_records, ede_of. destruct t as [t|]; [|exact H]. cbn [option_map]. destruct (ede_text t q mt) as [s|]; [|exact H].
  unfold reply in *. destruct H as (H1 & H2 & H3 & H4 & H5 & H6 & H7 & H8 & H9 & H10 & H11 & H12).
  unfold set_edns0, update_edns0. rewrite H12. cbn [app set_extra m_extra m_id m_response m_opcode m_rcode m_ra m_aa m_tc m_ad m_question m_answer m_ns].
  repeat (split; [assumption|]). reflexivity.
Qed.
Lemma reply_nx q : reply q 3 [] [] (nxdomain q).
Proof. unfold reply, nxdomain, responseWithCode, set_rcode, set_reply. cbn. destruct (m_question q); repeat split. Qed.
Lemma reply_refused q : reply q 5 [] [] (refused q).
Proof. unfold reply, refused, responseWithCode, set_rcode, set_reply. cbn. destruct (m_question q); repeat split. Qed.
Lemma reply_base q : reply q 0 [] [] (set_ra true (set_reply empty_msg q)).
Proof. unfold reply, set_reply. cbn. destruct (m_question q); repeat split. Qed.
Lemma reply_answer q rcode an ex m l : reply q rcode an ex m -> reply q rcode l ex (set_answer l m).
Proof. unfold reply. cbn. intros (H1 & H2 & H3 & H4 & H5 & H6 & H7 & H8 & H9 & H10 & H11 & H12). repeat (split; [assumption || reflexivity|]). assumption. Qed.
Lemma reply_setcode q an ex m code : reply q 0 an ex m -> reply q code an ex (set_rcode m q code).
Proof.
  unfold reply, set_rcode, set_reply. cbn. intros (H1 & H2 & H3 & H4 & H5 & H6 & H7 & H8 & H9 & H10 & H11 & H12).
  repeat (split; [assumption || reflexivity|]). split; [destruct (m_question q); [exact H9|reflexivity]|]. repeat (split; [assumption || reflexivity|]). assumption.
Qed.

Lemma to4_v4 ip : ip = [] \/ ip_ok ip -> (match to4 ip with Some _ => true | None => false end) = true <-> is_v4 ip.
Proof.
  intros [->|O].
  - split; [discriminate|]. intros [H|[H _]]; discriminate H.
  - destruct (v4_or _ O) as [[H ->]|[(M & H & ->)|(V & H & ->)]]; (split; [|try reflexivity; try contradiction]); try discriminate; intros _; [left|right]; assumption.
Qed.
Lemma spoof_spec x ips : Forall (fun ip => ip = [] \/ ip_ok ip) ips -> spoofed x ips (spoof x ips).
Proof.
  induction 1 as [|ip ips O _ IH]; [constructor|]. unfold spoof. cbn [flat_map]. fold (spoof x ips).
  pose proof (to4_v4 ip O) as V. change TypeA with 1. change TypeAAAA with 28.
  destruct (match to4 ip with Some _ => true | None => false end); cbn [andb].
  - destruct (N.eqb_spec (q_type x) 1) as [T|T].
    + cbn [app]. apply Sp_a; [exact T|tauto|exact IH].
    + destruct (Nat.eqb_spec (length ip) 16) as [L|L]; cbn [andb]; [destruct (N.eqb_spec (q_type x) 28) as [T2|T2]|]; cbn [app].
      * apply Sp_aaaa; assumption.
      * apply Sp_other; [tauto|tauto|exact IH].
      * apply Sp_other; [tauto|tauto|exact IH].
  - destruct (Nat.eqb_spec (length ip) 16) as [L|L]; cbn [andb]; [destruct (N.eqb_spec (q_type x) 28) as [T2|T2]|]; cbn [app].
    + apply Sp_aaaa; assumption.
    + apply Sp_other; [intros [_ K]; apply V in K; discriminate K|tauto|exact IH].
    + apply Sp_other; [intros [_ K]; apply V in K; discriminate K|tauto|exact IH].
Qed.

(** *** The query blocklist *)
Section Blocklist.
Variable resolve : target -> msg -> client -> result.
Variables (allowDB : option (msg -> option mres)) (blockDB : msg -> option mres) (hasAllow hasBlock : bool) (t : option edetemplate).
Definition db_fine (db : msg -> option mres) (q : msg) : Prop := exists r, db q = Some r /\ (mr_ok r = true -> mr_match r <> None) /\ Forall (fun ip => ip = [] \/ ip_ok ip) (mr_ips r).
Definition listed (db : msg -> option mres) (q : msg) : Prop := exists r, db q = Some r /\ mr_ok r = true.

Lemma bl_allowed q ci x rest db : m_question q = x :: rest -> allowDB = Some db -> db_fine db q -> listed db q ->
  blocklist_resolve resolve allowDB blockDB hasAllow hasBlock t q ci =
  Some (let w := if hasAllow then AllowlistResolver else Upstream in ([(w, q, ci)], resolve w q ci)).
Proof.
  intros Q -> (r & E & M & _) (r' & E' & O). rewrite E in E'. injection E' as <-. unfold blocklist_resolve. rewrite Q, E, O.
  destruct (mr_match r); [reflexivity|destruct (M O eq_refl)].
Qed.
Lemma bl_rest q ci x rest : m_question q = x :: rest -> (forall db, allowDB = Some db -> db_fine db q /\ ~ listed db q) ->
  blocklist_resolve resolve allowDB blockDB hasAllow hasBlock t q ci = blocklist_resolve resolve None blockDB hasAllow hasBlock t q ci.
Proof.
  intros Q H. unfold blocklist_resolve. rewrite Q. destruct allowDB as [db|]; [|reflexivity].
  destruct (H db eq_refl) as [(r & E & _) N]. rewrite E. destruct (mr_ok r) eqn:O; [exfalso; apply N; exists r; split; assumption|reflexivity].
Qed.
Lemma bl_passed q ci x rest : m_question q = x :: rest -> (forall db, allowDB = Some db -> db_fine db q /\ ~ listed db q) ->
  db_fine blockDB q -> ~ listed blockDB q ->
  blocklist_resolve resolve allowDB blockDB hasAllow hasBlock t q ci = Some ([(Upstream, q, ci)], resolve Upstream q ci).
Proof.
  intros Q H (r & E & _) N. rewrite (bl_rest _ _ _ _ Q H). unfold blocklist_resolve. rewrite Q, E.
  destruct (mr_ok r) eqn:O; [exfalso; apply N; exists r; split; assumption|reflexivity].
Qed.
Lemma bl_blocked q ci x rest r : m_question q = x :: rest -> (forall db, allowDB = Some db -> db_fine db q /\ ~ listed db q) ->
  db_fine blockDB q -> blockDB q = Some r -> mr_ok r = true ->
  exists calls out, blocklist_resolve resolve allowDB blockDB hasAllow hasBlock t q ci = Some (calls, out) /\
    (q_type x = 12 /\ mr_names r <> [] ->
       calls = [] /\ exists a, out = Ans a /\ reply q 0 (map (fun n => ptr_record x (fqdn n)) (firstn 10 (mr_names r))) [] a) /\
    (~ (q_type x = 12 /\ mr_names r <> []) -> hasBlock = true -> calls = [(BlocklistResolver, q, ci)] /\ out = resolve BlocklistResolver q ci) /\
    (~ (q_type x = 12 /\ mr_names r <> []) -> hasBlock = false ->
       calls = [] /\ exists a l, out = Ans a /\ spoofed x (mr_ips r) l /\
         (l <> [] -> reply q 0 l [] a) /\ (l = [] -> reply q 3 [] (error_records (ede_of t) q (mr_match r)) a)).
Proof.
  intros Q H (r' & E' & M & F) E O. rewrite E in E'. injection E' as <-. rewrite (bl_rest _ _ _ _ Q H). unfold blocklist_resolve. rewrite Q, E, O. cbn [negb].
  destruct (mr_match r) as [mt|] eqn:Em; [|destruct (M O eq_refl)]. change TypePTR with 12.
  assert (G : forall P Q' : Prop, ~ (q_type x = 12 /\ mr_names r <> []) ->
    exists calls out, (if hasBlock then Some (call resolve BlocklistResolver q ci)
      else let answer := set_ra true (set_reply empty_msg q) in
           match spoof x (mr_ips r) with
           | [] => Some ([], Ans (set_rcode (ede_apply t answer q (Some mt)) q RcodeNameError))
           | l => Some ([], Ans (set_answer l answer))
           end) = Some (calls, out) /\
    (q_type x = 12 /\ mr_names r <> [] ->
       calls = [] /\ exists a, out = Ans a /\ reply q 0 (map (fun n => ptr_record x (fqdn n)) (firstn 10 (mr_names r))) [] a) /\
    (~ (q_type x = 12 /\ mr_names r <> []) -> hasBlock = true -> calls = [(BlocklistResolver, q, ci)] /\ out = resolve BlocklistResolver q ci) /\
    (~ (q_type x = 12 /\ mr_names r <> []) -> hasBlock = false ->
       calls = [] /\ exists a l, out = Ans a /\ spoofed x (mr_ips r) l /\
         (l <> [] -> reply q 0 l [] a) /\ (l = [] -> reply q 3 [] (error_records (ede_of t) q (Some mt)) a))).
  { intros _ _ N. destruct hasBlock.
    - eexists _, _. split; [reflexivity|]. split; [intros K; contradiction|]. split; [intros _ _; split; reflexivity|discriminate].
    - cbv zeta. pose proof (spoof_spec x (mr_ips r) F) as S. destruct (spoof x (mr_ips r)) as [|y l] eqn:Es.
      + eexists _, _. split; [reflexivity|]. split; [intros K; contradiction|]. split; [discriminate|]. intros _ _. split; [reflexivity|].
        eexists _, []. split; [reflexivity|]. split; [exact S|]. split; [intros K; destruct (K eq_refl)|]. intros _.
        apply reply_setcode, ede_apply_reply, reply_base.
      + eexists _, _. split; [reflexivity|]. split; [intros K; contradiction|]. split; [discriminate|]. intros _ _. split; [reflexivity|].
        eexists _, (y :: l). split; [reflexivity|]. split; [exact S|]. split; [|discriminate]. intros _.
        eapply reply_answer, reply_base. }
  destruct (N.eqb_spec (q_type x) 12) as [T|T].
  - destruct (mr_names r) as [|n names] eqn:Nm.
    + apply (G True True). intros [_ K]. destruct (K eq_refl).
    + unfold ptr. rewrite Q. eexists _, _. split; [reflexivity|]. split; [|split; intros K; destruct K; split; [exact T|discriminate|exact T|discriminate]].
      intros _. split; [reflexivity|]. eexists. split; [reflexivity|]. eapply reply_answer, reply_base.
  - apply (G True True). intros [K _]. contradiction.
Qed.
End Blocklist.

(** *** The client blocklist *)
Lemma first_ecs_spec opts :
  (first_ecs opts = None /\ Forall (fun o => forall a, ~ subnet_option o a) opts) \/
  (exists l o l' a, first_ecs opts = Some a /\ opts = l ++ o :: l' /\ subnet_option o a /\ Forall (fun o => forall a, ~ subnet_option o a) l).
Proof.
  induction opts as [|o opts IH]; [left; split; [reflexivity|constructor]|].
  assert (D : (exists a, subnet_option o a /\ first_ecs (o :: opts) = Some a) \/ ((forall a, ~ subnet_option o a) /\ first_ecs (o :: opts) = first_ecs opts)).
  { destruct o; try (right; split; [intros a (f & m & s & E); discriminate E|reflexivity]).
    left. exists address. split; [exists family, mask, scope; reflexivity|reflexivity]. }
  destruct D as [(a & S & E)|[N E]].
  - right. exists [], o, opts, a. split; [exact E|]. split; [reflexivity|]. split; [exact S|constructor].
  - rewrite E. destruct IH as [[I F]|(l & p & l' & a & I & -> & S & F)].
    + left. split; [exact I|]. constructor; assumption.
    + right. exists (o :: l), p, l', a. split; [exact I|]. split; [reflexivity|]. split; [exact S|]. constructor; assumption.
Qed.
Lemma first_opt_fun {A} (P : A -> bytes -> Prop) : (forall o a b, P o a -> P o b -> a = b) ->
  forall l o l' a k p k' b, l ++ o :: l' = k ++ p :: k' -> P o a -> P p b -> Forall (fun o => forall a, ~ P o a) l -> Forall (fun o => forall a, ~ P o a) k -> a = b.
Proof.
  intros U. induction l as [|c l IH]; intros o l' a [|d k] p k' b E A1 B1 F G; cbn [app] in E; injection E as E1 E2.
  - subst p. exact (U _ _ _ A1 B1).
  - subst d. inversion_clear G. destruct (H _ A1).
  - subst c. inversion_clear F. destruct (H _ B1).
  - inversion_clear F. inversion_clear G. exact (IH _ _ _ _ _ _ _ E2 A1 B1 H0 H2).
Qed.
Lemma client_ip_spec useECS q ci a : opt_wf q -> (client_addr useECS q ci a <-> client_ip useECS q ci = a).
Proof.
  intros W. unfold client_addr, client_ip. destruct useECS; [|split; [intros [[H _]|[_ H]]; [discriminate H|symmetry; exact H]|intros <-; right; split; [left; reflexivity|reflexivity]]].
  destruct (is_edns0_cases q) as [[Nn E0]|(pre & r & post & H & E0 & _)]; rewrite E0.
  - assert (Nf : forall b, ~ first_subnet q b).
    { intros b (p & x & po & _ & _ & _ & E & T & _). unfold no_edns0 in Nn. rewrite E, Forall_app in Nn. destruct Nn as [_ Nn]. inversion_clear Nn. contradiction. }
    split; [intros [[_ K]|[_ K]]; [destruct (Nf a K)|symmetry; exact K]|]. intros <-. right. split; [right; exact Nf|reflexivity].
  - assert (D : exists o, rr_data r = DOPT o).
    { destruct H as (E & T & _). unfold opt_wf in W. rewrite E, Forall_app in W. destruct W as [_ W]. inversion_clear W. exact (H T). }
    destruct D as [opts D]. unfold opt_options. rewrite D.
    assert (Sh : forall b, first_subnet q b <-> exists l o l', opts = l ++ o :: l' /\ subnet_option o b /\ Forall (fun o => forall a, ~ subnet_option o a) l).
    { intros b. split.
      - intros (p & x & po & l & o & l' & E & T & F & Dx & S & G).
        assert (Hx : has_opt q p x po) by (split; [exact E|split; [exact T|exact F]]).
        destruct (has_opt_is _ _ _ _ Hx) as [I _]. rewrite E0 in I. injection I as <-. rewrite D in Dx. injection Dx as ->.
        exists l, o, l'. split; [reflexivity|split; assumption].
      - intros (l & o & l' & -> & S & G). destruct H as (E & T & F). exists pre, r, post, l, o, l'.
        split; [exact E|]. split; [exact T|]. split; [exact F|]. split; [exact D|]. split; assumption. }
    destruct (first_ecs_spec opts) as [[-> F]|(l & o & l' & b & -> & -> & S & F)].
    + assert (Nf : forall b, ~ first_subnet q b).
      { intros b K. apply Sh in K. destruct K as (l & o & l' & -> & S & _). rewrite Forall_app in F. destruct F as [_ F]. inversion_clear F. exact (H0 b S). }
      split; [intros [[_ K]|[_ K]]; [destruct (Nf a K)|symmetry; exact K]|]. intros <-. right. split; [right; exact Nf|reflexivity].
    + assert (Fb : first_subnet q b) by (apply Sh; exists l, o, l'; split; [reflexivity|split; assumption]).
      split.
      * intros [[_ K]|[[K|K] _]]; [|discriminate K|destruct (K b Fb)]. apply Sh in K. destruct K as (k & p & k' & E & S' & G).
        refine (first_opt_fun subnet_option _ _ _ _ _ _ _ _ _ E S S' F G).
        intros o1 a1 b1 (f & m & s & ->) (f' & m' & s' & X). injection X as _ _ _ X. exact X.
      * intros <-. left. split; [reflexivity|exact Fb].
Qed.
Theorem client_spec resolve db useECS hasBlock q ci a : opt_wf q -> client_addr useECS q ci a ->
  client_resolve resolve db useECS hasBlock q ci =
    if match a with [] => false | _ => is_some (db a) end
    then if hasBlock then ([(BlocklistResolver, q, ci)], resolve BlocklistResolver q ci) else ([], Ans (refused q))
    else ([(Upstream, q, ci)], resolve Upstream q ci).
Proof.
  intros W C. apply (client_ip_spec _ _ _ _ W) in C. unfold client_resolve. rewrite C. destruct a; [reflexivity|].
  destruct (db _); reflexivity.
Qed.

(** *** Response lists *)
Lemma rr_ip_spec r ip : rr_ip r = Some ip <-> has_addr r ip.
Proof.
  unfold rr_ip, has_addr. destruct (rr_data r); split; try discriminate; try (intros [H|H]; discriminate H);
  try (intros H; injection H as <-; auto); intros [H|H]; try discriminate H; injection H as <-; reflexivity.
Qed.
Definition on_list (db : bytes -> option (string * string)) (ip : bytes) : Prop := exists m, db ip = Some m.
Lemma ip_hit_spec db inverted r : ip_hit db inverted r = true <-> objectionable (on_list db) inverted r.
Proof.
  unfold ip_hit, objectionable. split.
  - destruct (rr_ip r) as [ip|] eqn:E; [|discriminate]. apply rr_ip_spec in E. intros H. exists ip. split; [exact E|].
    unfold on_list. destruct inverted, (db ip) as [m|]; try discriminate H; [intros [m K]; discriminate K|exists m; reflexivity].
  - intros (ip & E & H). apply rr_ip_spec in E. rewrite E. unfold on_list in H. destruct inverted, (db ip) as [m|]; try reflexivity.
    + destruct H. exists m. reflexivity.
    + destruct H as [m K]. discriminate K.
Qed.
Lemma objectionable_dec db inverted l : (exists r, In r l /\ objectionable (on_list db) inverted r) \/ (forall r, In r l -> ~ objectionable (on_list db) inverted r).
Proof.
  destruct (find (ip_hit db inverted) l) as [r|] eqn:E.
  - left. apply find_some in E. destruct E as [I E]. exists r. split; [exact I|apply ip_hit_spec; exact E].
  - right. intros r I H. apply ip_hit_spec in H. rewrite (find_none _ _ E r I) in H. discriminate H.
Qed.
Lemma filter_without db inverted l : without (objectionable (on_list db) inverted) l (filterRR db inverted l).
Proof.
  unfold filterRR. induction l as [|r l IH]; [constructor|]. cbn [filter]. destruct (ip_hit db inverted r) eqn:E; cbn [negb].
  - apply W_drop; [apply ip_hit_spec; exact E|exact IH].
  - apply W_keep; [intros H; apply ip_hit_spec in H; rewrite H in E; discriminate E|exact IH].
Qed.
Lemma without_fun {A} (P : A -> Prop) l a b : without P l a -> without P l b -> a = b.
Proof.
  intros H. revert b. induction H; intros b K; inversion K; subst; try contradiction; try reflexivity; auto.
  f_equal. apply IHwithout. assumption.
Qed.
Lemma without_none {A} (P : A -> Prop) l a : without P l a -> forall x, In x a -> ~ P x.
Proof. induction 1; intros y I; [destruct I|exact (IHwithout y I)|]. destruct I as [<-|I]; [exact H|exact (IHwithout y I)]. Qed.

Section Response.
Variable resolve : target -> msg -> client -> result.
Variables (db : bytes -> option (string * string)) (inverted hasBlock : bool) (t : option edetemplate).

Theorem rip_block_spec q ci a : resolve Upstream q ci = Ans a -> m_rcode a = 0 ->
  let out := rip_resolve resolve db false inverted hasBlock t q ci in
  ((forall r, In r (records a) -> ~ objectionable (on_list db) inverted r) -> out = ([(Upstream, q, ci)], Ans a)) /\
  ((exists r, In r (records a) /\ objectionable (on_list db) inverted r) -> 
     if hasBlock then out = ([(Upstream, q, ci); (BlocklistResolver, q, ci)], resolve BlocklistResolver q ci)
     else exists m r ip, out = ([(Upstream, q, ci)], Ans m) /\ In r (records a) /\ objectionable (on_list db) inverted r /\ has_addr r ip /\
       reply q 3 [] (error_records (ede_of t) q (db ip)) m).
Proof.
  intros E R out. subst out. unfold rip_resolve. rewrite E, R. cbn [N.eqb negb RcodeSuccess]. unfold ip_block. change (sections a) with (records a).
  split.
  - intros H. destruct (find _ _) as [r|] eqn:F; [|reflexivity]. apply find_some in F. destruct F as [I F]. apply ip_hit_spec in F. destruct (H r I F).
  - intros (r & I & O). destruct (find _ _) as [r'|] eqn:F.
    + apply find_some in F. destruct F as [I' F]. destruct hasBlock; [reflexivity|]. unfold ip_hit in F. destruct (rr_ip r') as [ip|] eqn:Ei; [|discriminate F].
      eexists _, r', ip. split; [reflexivity|]. split; [exact I'|]. split; [apply ip_hit_spec; unfold ip_hit; rewrite Ei; exact F|].
      split; [apply rr_ip_spec; exact Ei|]. unfold rr_match. rewrite Ei. apply ede_apply_reply, reply_nx.
    + apply ip_hit_spec in O. rewrite (find_none _ _ F r I) in O. discriminate O.
Qed.
Theorem rip_filter_spec q ci a an ns ex : resolve Upstream q ci = Ans a -> m_rcode a = 0 ->
  without (objectionable (on_list db) inverted) (m_answer a) an ->
  without (objectionable (on_list db) inverted) (m_ns a) ns ->
  without (objectionable (on_list db) inverted) (m_extra a) ex ->
  let out := rip_resolve resolve db true inverted hasBlock t q ci in
  (an <> [] -> out = ([(Upstream, q, ci)], Ans (set_extra ex (set_ns ns (set_answer an a))))) /\
  (an = [] -> if hasBlock then out = ([(Upstream, q, ci); (BlocklistResolver, q, ci)], resolve BlocklistResolver q ci)
     else exists m, out = ([(Upstream, q, ci)], Ans m) /\ reply q 3 [] [] m).
Proof.
  intros E R W1 W2 W3 out. subst out. unfold rip_resolve. rewrite E, R. cbn [N.eqb negb RcodeSuccess]. unfold ip_filter.
  rewrite (without_fun _ _ _ _ (filter_without db inverted (m_answer a)) W1), (without_fun _ _ _ _ (filter_without db inverted (m_ns a)) W2),
    (without_fun _ _ _ _ (filter_without db inverted (m_extra a)) W3). split; intros H.
  - destruct an; [destruct (H eq_refl)|reflexivity].
  - rewrite H. destruct hasBlock; [reflexivity|]. eexists. split; [reflexivity|]. apply reply_nx.
Qed.
Theorem rip_other filter_ q ci : (forall a, resolve Upstream q ci = Ans a -> m_rcode a <> 0) ->
  rip_resolve resolve db filter_ inverted hasBlock t q ci = ([(Upstream, q, ci)], resolve Upstream q ci).
Proof.
  intros H. unfold rip_resolve. destruct (resolve Upstream q ci) as [a| |e]; try reflexivity. specialize (H a eq_refl).
  unfold RcodeSuccess. apply N.eqb_neq in H. rewrite H. reflexivity.
Qed.
Theorem rip_clean filter_ q ci calls m : hasBlock = false -> rip_resolve resolve db filter_ inverted hasBlock t q ci = (calls, Ans m) -> m_rcode m = 0 ->
  forall r, In r (records m) -> ~ objectionable (on_list db) inverted r.
Proof.
  intros B E R. destruct (resolve Upstream q ci) as [a| |e] eqn:U; try (unfold rip_resolve in E; rewrite U in E; discriminate E).
  destruct (N.eq_dec (m_rcode a) 0) as [Z|Z].
  - destruct filter_.
    + destruct (rip_filter_spec q ci a _ _ _ U Z (filter_without _ _ _) (filter_without _ _ _) (filter_without _ _ _)) as [H1 H2]. rewrite B in H2.
      destruct (filterRR db inverted (m_answer a)) as [|y l] eqn:F.
      * destruct (H2 eq_refl) as (m' & E' & Rm). rewrite B in E. rewrite E in E'. injection E' as _ <-. destruct Rm as (_ & _ & _ & Rc & _). rewrite Rc in R. discriminate R.
      * rewrite H1 in E by discriminate. injection E as _ <-. unfold records. intros r I K.
        pose proof (filter_without db inverted (m_answer a)) as W1. rewrite F in W1.
        cbn [m_answer m_ns m_extra set_answer set_ns set_extra] in I.
        apply in_app_or in I. destruct I as [I|I]; [exact (without_none _ _ _ W1 _ I K)|].
        apply in_app_or in I. destruct I as [I|I]; exact (without_none _ _ _ (filter_without db inverted _) _ I K).
    + destruct (rip_block_spec q ci a U Z) as [H1 H2]. destruct (objectionable_dec db inverted (records a)) as [X|X].
      * specialize (H2 X). rewrite B in H2. destruct H2 as (m' & r & ip & E' & _ & _ & _ & Rm). rewrite B in E. rewrite E in E'. injection E' as _ <-.
        destruct Rm as (_ & _ & _ & Rc & _). rewrite Rc in R. discriminate R.
      * rewrite (H1 X) in E. injection E as _ <-. exact X.
  - rewrite rip_other in E by (intros b K; rewrite U in K; injection K as <-; exact Z). rewrite U in E. injection E as _ <-. contradiction.
Qed.

(** Names *)
Variable kv : N -> string.
Lemma join_concat l : join " "%char l = String.concat " " l.
Proof. induction l as [|x [|y l] IH]; [reflexivity|reflexivity|]. cbn [join String.concat] in *. rewrite IH. reflexivity. Qed.
Lemma svcb_concat p : forall s, svcbString kv s p = String.concat " " (s :: map kv p).
Proof.
  unfold svcbString. induction p as [|v p IH]; intros s; [reflexivity|]. cbn [fold_left map]. rewrite IH. cbn [map].
  destruct p as [|w p]; cbn [map String.concat].
  - reflexivity.
  - rewrite !string_app_assoc. reflexivity.
Qed.
Lemma rr_text_spec r s : rr_text kv r = Some s <-> text_of kv r s.
Proof.
  unfold rr_text. split.
  - destruct (rr_data r) eqn:E; intros H; try discriminate H; injection H as <-; try (econstructor; exact E).
    + rewrite join_concat. exact (T_txt kv r _ E).
    + rewrite svcb_concat. exact (T_svcb kv r _ _ _ E).
    + rewrite svcb_concat. exact (T_https kv r _ _ _ E).
  - intros H. destruct H as [s H|p s H|s H|s H|p w o s H|l H|p s l H|p s l H|s m a b c d e H]; rewrite H; try reflexivity.
    + rewrite join_concat. reflexivity.
    + rewrite svcb_concat. reflexivity.
    + rewrite svcb_concat. reflexivity.
Qed.
Variable ndb : msg -> option mres.
Variable id : N.
Definition name_listed (s : string) : Prop := exists r, ndb (text_query id s) = Some r /\ mr_ok r = true.
Definition name_bad (r : rr) : Prop := exists s, text_of kv r s /\ (if inverted then ~ name_listed s else name_listed s).
Hypothesis total : forall s, ndb (text_query id s) <> None.
Lemma name_block_spec q a ci l :
  ((forall r, In r l -> ~ name_bad r) -> name_block resolve kv ndb id inverted hasBlock t q a ci l = Some ([], Ans a)) /\
  ((exists r, In r l /\ name_bad r) ->
     if hasBlock then name_block resolve kv ndb id inverted hasBlock t q a ci l = Some ([(BlocklistResolver, q, ci)], resolve BlocklistResolver q ci)
     else exists m r s x, name_block resolve kv ndb id inverted hasBlock t q a ci l = Some ([], Ans m) /\ In r l /\ name_bad r /\ text_of kv r s /\
       ndb (text_query id s) = Some x /\ reply q 3 [] (error_records (ede_of t) q (mr_match x)) m).
Proof.
  induction l as [|r l [IH1 IH2]].
  - split; [reflexivity|]. intros (r & [] & _).
  - cbn [name_block]. destruct (rr_text kv r) as [s|] eqn:E.
    + change (name_msg id s) with (text_query id s). destruct (ndb (text_query id s)) as [x|] eqn:Ex; [|destruct (total s Ex)].
      assert (T : text_of kv r s) by (apply rr_text_spec; exact E).
      assert (L : name_listed s <-> mr_ok x = true).
      { unfold name_listed. rewrite Ex. split; [intros (x' & X & O); injection X as <-; exact O|intros O; exists x; split; [reflexivity|exact O]]. }
      assert (U : forall s', text_of kv r s' -> s' = s) by (intros s' T'; apply rr_text_spec in T'; rewrite E in T'; injection T' as <-; reflexivity).
      assert (B : name_bad r <-> negb (Bool.eqb (mr_ok x) inverted) = true).
      { unfold name_bad. split.
        - intros (s' & T' & K). rewrite (U s' T') in K. destruct inverted, (mr_ok x); try reflexivity.
          + destruct K. apply L. reflexivity.
          + apply L in K. discriminate K.
        - intros K. exists s. split; [exact T|]. destruct inverted, (mr_ok x); try discriminate K; [intros C; apply L in C; discriminate C|apply L; reflexivity]. }
      destruct (negb (Bool.eqb (mr_ok x) inverted)).
      * split; [intros H; destruct (H r (or_introl eq_refl)); apply B; reflexivity|]. intros _. destruct hasBlock; [reflexivity|].
        eexists _, r, s, x. split; [reflexivity|]. split; [left; reflexivity|]. split; [apply B; reflexivity|]. split; [exact T|]. split; [exact Ex|].
        apply ede_apply_reply, reply_nx.
      * assert (NB : ~ name_bad r) by (intros K; apply B in K; discriminate K). split.
        -- intros H. apply IH1. intros y I. exact (H y (or_intror I)).
        -- intros (y & [<-|I] & K); [contradiction|]. specialize (IH2 (ex_intro _ y (conj I K))). destruct hasBlock; [exact IH2|].
           destruct IH2 as (m & r' & s' & x' & X1 & X2 & X3). exists m, r', s', x'. split; [exact X1|]. split; [right; exact X2|exact X3].
    + assert (NB : ~ name_bad r) by (intros (s & T & _); apply rr_text_spec in T; rewrite E in T; discriminate T). split.
      * intros H. apply IH1. intros y I. exact (H y (or_intror I)).
      * intros (y & [<-|I] & K); [contradiction|]. specialize (IH2 (ex_intro _ y (conj I K))). destruct hasBlock; [exact IH2|].
        destruct IH2 as (m & r' & s' & x' & X1 & X2 & X3). exists m, r', s', x'. split; [exact X1|]. split; [right; exact X2|exact X3].
Qed.
Theorem rname_spec q ci a : resolve Upstream q ci = Ans a ->
  let out := rname_resolve resolve kv ndb id inverted hasBlock t q ci in
  ((forall r, In r (records a) -> ~ name_bad r) -> out = Some ([(Upstream, q, ci)], Ans a)) /\
  ((exists r, In r (records a) /\ name_bad r) ->
     if hasBlock then out = Some ([(Upstream, q, ci); (BlocklistResolver, q, ci)], resolve BlocklistResolver q ci)
     else exists m r s x, out = Some ([(Upstream, q, ci)], Ans m) /\ In r (records a) /\ name_bad r /\ text_of kv r s /\
       ndb (text_query id s) = Some x /\ reply q 3 [] (error_records (ede_of t) q (mr_match x)) m).
Proof.
  intros E out. subst out. unfold rname_resolve. rewrite E. change (sections a) with (records a).
  destruct (name_block_spec q a ci (records a)) as [H1 H2]. split.
  - intros H. rewrite (H1 H). reflexivity.
  - intros H. specialize (H2 H). destruct hasBlock; [rewrite H2; reflexivity|].
    destruct H2 as (m & r & s & x & X1 & X2). exists m, r, s, x. rewrite X1. split; [reflexivity|exact X2].
Qed.
Theorem rname_other q ci : (forall a, resolve Upstream q ci <> Ans a) ->
  rname_resolve resolve kv ndb id inverted hasBlock t q ci = Some ([(Upstream, q, ci)], resolve Upstream q ci).
Proof. intros H. unfold rname_resolve. destruct (resolve Upstream q ci) as [a| |e]; [destruct (H a eq_refl)|reflexivity|reflexivity]. Qed.
End Response.

Lemma client_claims resolve db useECS hasBlock q ci a : opt_wf q -> client_addr useECS q ci a ->
  (a <> [] -> on_list db a -> hasBlock = true -> client_resolve resolve db useECS hasBlock q ci = ([(BlocklistResolver, q, ci)], resolve BlocklistResolver q ci)) /\
  (a <> [] -> on_list db a -> hasBlock = false -> exists m, client_resolve resolve db useECS hasBlock q ci = ([], Ans m) /\ reply q 5 [] [] m) /\
  (a = [] \/ ~ on_list db a -> client_resolve resolve db useECS hasBlock q ci = ([(Upstream, q, ci)], resolve Upstream q ci)).
Proof.
  intros W C. rewrite (client_spec resolve db useECS hasBlock q ci a W C).
  assert (L : a <> [] -> on_list db a -> match a with [] => false | _ => is_some (db a) end = true).
  { intros N [m E]. destruct a; [contradiction|]. rewrite E. reflexivity. }
  split; [intros N O ->; rewrite (L N O); reflexivity|]. split.
  - intros N O ->. rewrite (L N O). eexists. split; [reflexivity|]. apply reply_refused.
  - intros H. destruct a as [|b a]; [reflexivity|]. destruct H as [H|H]; [discriminate H|]. destruct (db (b :: a)) as [m|] eqn:E; [|reflexivity].
    destruct H. exists m. exact E.
Qed.
Lemma client_addr_unique useECS q ci : opt_wf q -> exists a, client_addr useECS q ci a /\ forall b, client_addr useECS q ci b -> b = a.
Proof.
  intros W. exists (client_ip useECS q ci). split; [apply (client_ip_spec _ _ _ _ W); reflexivity|].
  intros b H. apply (client_ip_spec _ _ _ _ W) in H. symmetry. exact H.
Qed.
