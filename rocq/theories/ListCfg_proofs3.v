From Verif Require Import Base Bytes Dns Cidr_spec Net_spec Modifiers_spec Lists_model Geo_model Blocklist_model Blocklist_spec Blocklist_proofs ListCfg_model ListCfg_spec ListCfg_proofs ListCfg_proofs2.
Local Open Scope string_scope.
Local Open Scope list_scope.

Lemma objectionable_iff P Q inv r : (forall ip, P ip <-> Q ip) -> (objectionable P inv r <-> objectionable Q inv r).
Proof. intros H. unfold objectionable. split; intros (ip & A & B); exists ip; (split; [exact A|]); destruct inv; specialize (H ip); tauto. Qed.
Lemma without_iff {A} (P Q : A -> Prop) l l' : (forall x, P x <-> Q x) -> without P l l' -> without Q l l'.
Proof. intros H W. induction W; [constructor|..]; [apply W_drop|apply W_keep]; auto; rewrite <- H; auto. Qed.
Section ELEMENT.
Variable R : Type.
Variable names : db -> msg -> option mres.
Variable addrs : db -> bytes -> option (string * string).
Variable resolve : R -> msg -> client -> Dns.result.
Variable kv : N -> string.
Variable rnd : N.
Notation out e := (element_resolve R names addrs resolve kv rnd e).
Definition allow_lists (e : element R) : list db := match e_allow R e with Some b => contents b | None => [] end.
Lemma query_element e q ci x rest : e_kind R e = QueryBlock -> m_question q = x :: rest -> fine names q (allow_lists e ++ contents (e_block R e)) ->
  query_blocking names resolve (e_up R e) (allow_lists e) (contents (e_block R e)) (e_allowRes R e) (e_blockRes R e) (ede_of (e_ede R e)) q ci x (out e q ci).
Proof.
  intros K HQ Fi. assert (fine names q (contents (e_block R e))) as FB by (intros d I; apply Fi, in_or_app; auto).
  assert (fine names q (allow_lists e)) as FA by (intros d I; apply Fi, in_or_app; auto).
  assert (forall db0, option_map (name_match names) (e_allow R e) = Some db0 ->
    db_fine db0 q /\ (listed db0 q <-> exists d, In d (allow_lists e) /\ listing names q d)) as AL.
  { unfold allow_lists in *. intros db0. destruct (e_allow R e) as [b|]; [|discriminate]. cbn. intros X. injection X as <-.
    split; [now apply match_fine|now apply match_listed]. }
  assert ((forall d, In d (allow_lists e) -> ~ listing names q d) ->
    forall db0, option_map (name_match names) (e_allow R e) = Some db0 -> db_fine db0 q /\ ~ listed db0 q) as NA.
  { intros N db0 E. destruct (AL db0 E) as [A B]. split; [exact A|]. rewrite B. intros (d & I & L). exact (N d I L). }
  unfold element_resolve. rewrite K. split; [|split].
  - intros H. assert (exists db0, option_map (name_match names) (e_allow R e) = Some db0) as [db0 E].
    { destruct H as (d & I & _). unfold allow_lists in I. destruct (e_allow R e); [now eexists|destruct I]. }
    destruct (AL db0 E) as [A B]. apply B in H.
    rewrite (bl_allowed (fun t => resolve (asked R e t)) _ _ _ _ _ q ci x rest db0 HQ E A H). cbn. unfold asked, has. destruct (e_allowRes R e); reflexivity.
  - intros N.
    rewrite (bl_passed (fun t => resolve (asked R e t)) _ _ _ _ _ q ci x rest HQ).
    + reflexivity.
    + apply NA. intros d I. apply N, in_or_app. auto.
    + now apply match_fine.
    + rewrite match_listed by exact FB. intros (d & I & L). apply (N d); [apply in_or_app; auto|exact L].
  - intros m N H. pose proof (match_first names (e_block R e) q m FB H) as E. pose proof (first_fine names q _ m FB H) as (O & _ & _).
    destruct (bl_blocked (fun t => resolve (asked R e t)) (option_map (name_match names) (e_allow R e)) (name_match names (e_block R e)) (has (e_allowRes R e)) (has (e_blockRes R e))
      (e_ede R e) q ci x rest m HQ (NA N) (match_fine names (e_block R e) q FB) E O) as (calls & o & X & C1 & C2 & C3).
    rewrite X. cbn [option_map fst snd]. unfold blocked_reply, names_given in *. destruct (e_blockRes R e) as [r|] eqn:BR; cbn [has] in *.
    + split.
      * intros G. destruct (C2 G eq_refl) as [-> ->]. cbn. unfold asked. now rewrite BR.
      * intros G. destruct (C1 G) as (-> & a & -> & Y). exists a. split; [reflexivity|]. split; [auto|tauto].
    + assert ((q_type x = 12%N /\ mr_names m <> []) \/ ~ (q_type x = 12%N /\ mr_names m <> [])) as [G|G].
      { destruct (N.eq_dec (q_type x) 12); [|tauto]. destruct (mr_names m); [right|left]; [intros [_ []]; reflexivity|split; [assumption|discriminate]]. }
      * destruct (C1 G) as (-> & a & -> & Y). exists a. split; [reflexivity|]. split; [auto|tauto].
      * destruct (C3 G eq_refl) as (-> & a & l & -> & Y). exists a. split; [reflexivity|]. split; [tauto|]. intros _. now exists l.
Qed.
End ELEMENT.

Section ELEMENT2.
Variable R : Type.
Variable names : db -> msg -> option mres.
Variable addrs : db -> bytes -> option (string * string).
Variable resolve : R -> msg -> client -> Dns.result.
Variable kv : N -> string.
Variable rnd : N.
Notation out e := (element_resolve R names addrs resolve kv rnd e).
Lemma amatch_from b ip m : addr_match addrs b ip = Some m -> exists d, In d (contents b) /\ addrs d ip = Some m.
Proof.
  destruct b as [d|L]; cbn; [intros E; exists d; auto|]. induction L as [|d L IH]; cbn; [discriminate|]. destruct (addrs d ip) eqn:E.
  - intros X. injection X as ->. exists d. auto.
  - intros X. destruct (IH X) as (d' & I & Y). exists d'. auto.
Qed.
Lemma rip_element e q ci a : e_kind R e = ResponseIP -> resolve (e_up R e) q ci = Ans a -> m_rcode a = 0%N ->
  let bad := objectionable (addr_listed addrs (contents (e_block R e))) (e_inverted R e) in
  (e_filter R e = false -> response_blocking resolve (e_up R e) (e_blockRes R e) bad (says addrs (ede_of (e_ede R e)) (contents (e_block R e)) q) q ci a (out e q ci)) /\
  (e_filter R e = true -> response_filtering resolve (e_up R e) (e_blockRes R e) bad q ci a (out e q ci)).
Proof.
  intros K U RC bad. set (db := addr_match addrs (e_block R e)).
  assert (forall r, objectionable (on_list db) (e_inverted R e) r <-> bad r) as OB by (intros r; apply objectionable_iff; intros ip; apply addr_on).
  unfold element_resolve. rewrite K. fold db. split; intros FI; rewrite FI.
  - destruct (rip_block_spec (fun t => resolve (asked R e t)) db (e_inverted R e) (has (e_blockRes R e)) (e_ede R e) q ci a U RC) as [A B]. split.
    + intros N. rewrite A; [reflexivity|]. intros r I. rewrite OB. auto.
    + intros (r & I & Bd). assert (exists r, In r (records a) /\ objectionable (on_list db) (e_inverted R e) r) as H by (exists r; rewrite OB; auto).
      specialize (B H). destruct (e_blockRes R e) as [r'|] eqn:BR; cbn [has] in *.
      * rewrite B. cbn. unfold asked. now rewrite BR.
      * destruct B as (m & r1 & ip & B & _ & _ & _ & Y). cbn [has] in *. exists m, (error_records (ede_of (e_ede R e)) q (db ip)). split; [rewrite B; reflexivity|].
        split; [exact Y|]. exists (db ip). split; [reflexivity|]. intros m0 E. apply amatch_from in E as (d & I' & E). now exists d, ip.
  - intros an ns ex W1 W2 W3. pose proof (without_iff _ _ _ _ (fun x => iff_sym (OB x)) W1) as V1. pose proof (without_iff _ _ _ _ (fun x => iff_sym (OB x)) W2) as V2.
    pose proof (without_iff _ _ _ _ (fun x => iff_sym (OB x)) W3) as V3.
    destruct (rip_filter_spec (fun t => resolve (asked R e t)) db (e_inverted R e) (has (e_blockRes R e)) (e_ede R e) q ci a an ns ex U RC V1 V2 V3) as [A B]. split.
    + intros N. rewrite (A N). reflexivity.
    + intros N. specialize (B N). destruct (e_blockRes R e) as [r'|] eqn:BR; cbn [has] in *.
      * rewrite B. cbn. unfold asked. now rewrite BR.
      * destruct B as (m & B & Y). exists m. split; [rewrite B; reflexivity|exact Y].
Qed.
Lemma rip_element_other e q ci : e_kind R e = ResponseIP -> (forall a, resolve (e_up R e) q ci = Ans a -> m_rcode a <> 0%N) -> out e q ci = Some ([e_up R e], resolve (e_up R e) q ci).
Proof. intros K N. unfold element_resolve. rewrite K. rewrite rip_other; [reflexivity|exact N]. Qed.
Lemma rname_element e q ci a : e_kind R e = ResponseName -> (forall s, fine names (text_query rnd s) (contents (e_block R e))) -> resolve (e_up R e) q ci = Ans a -> e_ede R e = None ->
  response_blocking resolve (e_up R e) (e_blockRes R e) (bad_text names kv rnd (contents (e_block R e)) (e_inverted R e)) (fun ex => ex = []) q ci a (out e q ci).
Proof.
  intros K Fi U NE. set (db := name_match names (e_block R e)).
  assert (forall s, db (text_query rnd s) <> None) as T by (intros s; destruct (match_fine names (e_block R e) _ (Fi s)) as (m & E & _); subst db; congruence).
  assert (forall r, name_bad (e_inverted R e) kv db rnd r <-> bad_text names kv rnd (contents (e_block R e)) (e_inverted R e) r) as NB.
  { intros r. unfold name_bad, bad_text, name_listed. split; intros (s & Ts & X); exists s; (split; [exact Ts|]); pose proof (match_listed names (e_block R e) _ (Fi s)) as ML;
      unfold listed in ML; fold db in ML; cbv zeta in *; destruct (e_inverted R e).
    - intros d I L. apply X, ML. now exists d.
    - now apply ML.
    - intros H. apply ML in H as (d & I & L). exact (X d I L).
    - now apply ML. }
  unfold element_resolve. rewrite K. fold db.
  destruct (rname_spec (fun t => resolve (asked R e t)) (e_inverted R e) (has (e_blockRes R e)) (e_ede R e) kv db rnd T q ci a U) as [A B]. split.
  - intros N. rewrite A; [reflexivity|]. intros r I. rewrite NB. auto.
  - intros (r & I & Bd). assert (exists r, In r (records a) /\ name_bad (e_inverted R e) kv db rnd r) as H by (exists r; rewrite NB; auto).
    specialize (B H). destruct (e_blockRes R e) as [r'|] eqn:BR; cbn [has] in *.
    + rewrite B. cbn. unfold asked. now rewrite BR.
    + destruct B as (m & r1 & s & x & B & _ & _ & _ & _ & Y). exists m, []. split; [rewrite B; reflexivity|]. rewrite NE in Y. cbn in Y. auto.
Qed.
Lemma rname_element_other e q ci : e_kind R e = ResponseName -> (forall a, resolve (e_up R e) q ci <> Ans a) -> out e q ci = Some ([e_up R e], resolve (e_up R e) q ci).
Proof. intros K N. unfold element_resolve. rewrite K. rewrite rname_other; [reflexivity|exact N]. Qed.
Lemma client_element e q ci a : e_kind R e = ClientBlock -> Modifiers_spec.opt_wf q -> client_addr (e_useECS R e) q ci a ->
  let on := addr_listed addrs (contents (e_block R e)) a in
  (a = [] \/ ~ on -> out e q ci = Some ([e_up R e], resolve (e_up R e) q ci)) /\
  (a <> [] -> on -> match e_blockRes R e with
                    | Some r => out e q ci = Some ([r], resolve r q ci)
                    | None => exists m, out e q ci = Some ([], Ans m) /\ reply q 5 [] [] m
                    end).
Proof.
  intros K W CA on. unfold element_resolve. rewrite K. set (db := addr_match addrs (e_block R e)).
  destruct (client_claims (fun t => resolve (asked R e t)) db (e_useECS R e) (has (e_blockRes R e)) q ci a W CA) as (A & B & C).
  assert (on_list db a <-> on) as O by apply addr_on. split.
  - intros H. rewrite C; [reflexivity|]. rewrite O. exact H.
  - intros N H. apply O in H. destruct (e_blockRes R e) as [r|] eqn:BR; cbn [has] in *.
    + rewrite (A N H eq_refl). cbn. unfold asked. now rewrite BR.
    + destruct (B N H eq_refl) as (m & -> & Y). now exists m.
Qed.
End ELEMENT2.
