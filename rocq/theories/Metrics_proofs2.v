(** Proofs about counters: blocklists, modifiers, router and groups *)
From Coq Require Import Permutation.
From Verif Require Import Base Bytes Dns Net Cidr_model Modifiers_model Lists_model Metrics_model Metrics_spec Metrics_proofs.
From Verif Require Blocklist_model Dns64_model RateLimit_model Router_model Cache_model Lru_model Blob_model.
From Verif Require Import Groups_model Groups_spec Groups_proofs.
Local Open Scope string_scope.
Local Open Scope bool_scope.
Local Open Scope nat_scope.

Ltac count := unfold times, named; cbn [filter bump_eqb int err fst snd app String.eqb Ascii.eqb Bool.eqb andb orb length one].

(** ** Blocklists *)
Section Block.
Import Blocklist_model.
Local Open Scope nat_scope.
Lemma block_count resolve allowDB blockDB hasAllow hasBlock t q ci :
  let r := blocklist_resolve resolve allowDB blockDB hasAllow hasBlock t q ci in
  r <> None ->
  times (int "allow") (block_bumps allowDB blockDB q) = one (to_upstream r) /\
  times (int "deny") (block_bumps allowDB blockDB q) = one (to_block r).
Proof.
  intros r. subst r. unfold blocklist_resolve, block_bumps, call. destruct (m_question q) as [|x l]; [congruence|].
  set (rest := match blockDB q with None => None | Some _ => _ end).
  set (brest := match blockDB q with None => [] | Some _ => _ end).
  assert (R : rest <> None -> times (int "allow") brest = one (to_upstream rest) /\ times (int "deny") brest = one (to_block rest)).
  { subst rest brest. destruct (blockDB q) as [r|]; [|congruence]. destruct (mr_ok r); cbn [negb]; [|intros _; split; reflexivity].
    destruct (mr_match r) as [mt|]; [|congruence].
    destruct (N.eqb (q_type x) TypePTR); destruct (mr_names r) as [|y ys];
      try (destruct hasBlock; [intros _; split; reflexivity|]; destruct (spoof x (mr_ips r)); intros _; split; reflexivity).
    destruct (ptr q (firstn maxPTRResponses (y :: ys))); cbn [option_map]; [intros _; split; reflexivity|intros H; exfalso; apply H; reflexivity]. }
  destruct allowDB as [db|]; [|exact R]. destruct (db q) as [r|]; [|congruence]. destruct (mr_ok r); [|exact R].
  destruct (mr_match r); [|congruence]. intros _. destruct hasAllow; split; reflexivity.
Qed.
Lemma client_count resolve db useECS hasBlock q ci :
  let r := Some (client_resolve resolve db useECS hasBlock q ci) in
  times (int "allow") (client_bumps db useECS q ci) = one (to_upstream r) /\
  times (int "deny") (client_bumps db useECS q ci) = one (to_block r).
Proof.
  unfold client_resolve, client_bumps, call. destruct (client_ip useECS q ci) as [|b ip]; [split; reflexivity|].
  destruct (db (b :: ip)); [destruct hasBlock|]; split; reflexivity.
Qed.
End Block.

(** ** Cache *)
Section Cache.
Import Cache_model.
Local Open Scope nat_scope.
Lemma cache_count ipString pack unpack hash o shuffle q now c :
  let run := resolve ipString pack unpack hash o shuffle q now in
  (exists later, run later Drop c <> None) ->
  let l := cache_bumps ipString unpack hash o shuffle q now c in
  times (int "hit") l + times (int "miss") l = one (cacheable o q) /\
  (times (int "hit") l = 1 -> exists a c', forall up later, run later up c = Some (c', Ans a)) /\
  (times (int "miss") l = 1 -> forall up later c' r, run later up c = Some (c', r) -> r = up).
Proof.
  intros run NP l. subst run l. replace (cacheable o q) with (negb (Nat.ltb 1 (length (m_question q))) && negb (negb (String.eqb (o_flush o) "") && match m_question q with x :: _ => String.eqb (o_flush o) (q_name x) | [] => false end))
    by (unfold cacheable; destruct (m_question q) as [|x [|y l]]; [rewrite andb_false_r; reflexivity| |reflexivity]; destruct (String.eqb (o_flush o) ""), (String.eqb (o_flush o) (q_name x)); reflexivity).
  unfold cache_bumps, resolve in *. destruct (Nat.ltb 1 (length (m_question q))); [cbn; repeat split; discriminate|]. cbn [negb andb].
  unfold resolve_lookup in *. destruct (negb (String.eqb (o_flush o) "") && _); [cbn; repeat split; discriminate|]. cbn [negb andb].
  destruct (answerFromCache ipString unpack hash o shuffle q now c) as [[c' [[a pf]|]]|] eqn:A.
  - repeat split; try discriminate. intros _. exists a, c'. intros up later.
    destruct (pf && _); [|reflexivity]. destruct (minTTL a) as [min ok]. destruct (ok && _); reflexivity.
  - repeat split; try discriminate. intros _ up later c1 r. unfold resolve_finish. destruct up as [a| |e]; try congruence. destruct (m_tc a); [congruence|].
    destruct (storeInCache o later a); [|congruence]. destruct (mem_store _ _ _ _ _ _); cbn [option_map]; congruence.
  - exfalso. destruct NP as (later & NP). apply NP. reflexivity.
Qed.
End Cache.

(** ** DNS64 *)
Section D64.
Import Dns64_model.
Local Open Scope nat_scope.
Lemma synth_some prefixes a x : synthesizeAAAA prefixes a x <> [] -> existsb (fun r => N.eqb (rr_type r) TypeAAAA) (synthesizeAAAA prefixes a x) = true.
Proof.
  unfold synthesizeAAAA. destruct (flat_map (synth_record prefixes x) (m_answer a)) as [|r l] eqn:F; [congruence|]. intros _.
  rewrite existsb_app. apply orb_true_intro. right. cbn [existsb]. apply orb_true_intro. left.
  assert (I : In r (flat_map (synth_record prefixes x) (m_answer a))) by (rewrite F; left; reflexivity).
  apply in_flat_map in I as (y & _ & I). unfold synth_record in I. destruct (rr_data y); try contradiction. destruct (to4 _); [|contradiction].
  apply in_map_iff in I as (p & <- & _). reflexivity.
Qed.
Lemma d64_count prefixes resolve q : m_question q <> [] ->
  let r := dns64_resolve prefixes resolve q in let l := dns64_bumps prefixes resolve q in
  times (int "query") l = one (d64_applies q) /\
  times (int "err") l = one (d64_applies q && d64_failed resolve r) /\
  times (int "synth") l = one (d64_applies q && d64_made resolve q r) /\
  times (int "passthru") l + times (int "err") l + times (int "synth") l = one (negb (d64_applies q && match resolve q with Drop => true | _ => false end)).
Proof.
  intros NQ r l. subst r l. unfold dns64_bumps, dns64_resolve, d64_applies. destruct (m_question q) as [|x ql]; [congruence|].
  destruct (N.eqb (q_type x) TypeAAAA); cbn [negb andb]; [|repeat split; reflexivity].
  destruct (match is_edns0 q with Some o => opt_do o | None => false end); cbn [negb andb]; [repeat split; reflexivity|].
  unfold d64_failed, d64_made.
  destruct (resolve q) as [a| |e] eqn:R; [|cbn; rewrite ?R; repeat split; reflexivity|cbn; rewrite ?R; repeat split; reflexivity].
  destruct (negb (N.eqb (m_rcode a) RcodeSuccess)).
  { cbn [existsb]; rewrite R. cbn [is_err orb has_aaaa]. rewrite andb_negb_r. repeat split; reflexivity. }
  destruct (hasAAAARecords a) eqn:HA.
  { cbn [existsb]; rewrite R. cbn [is_err orb has_aaaa]. rewrite andb_negb_r. repeat split; reflexivity. }
  unfold hasAAAARecords in HA.
  destruct (resolve (a_query q)) as [b| |e] eqn:RA.
  - destruct (negb (N.eqb (m_rcode b) RcodeSuccess)).
    { cbn [existsb]; rewrite R, RA. cbn [is_err orb has_aaaa]. rewrite andb_negb_r. repeat split; reflexivity. }
    pose proof (synth_some prefixes b x) as S. destruct (synthesizeAAAA prefixes b x) as [|y ys].
    + cbn [existsb]; rewrite R, RA. cbn [is_err orb has_aaaa]. rewrite andb_negb_r. repeat split; reflexivity.
    + assert (S' := S ltac:(discriminate)). clear S. cbn [existsb]. rewrite R, RA. cbn [is_err orb has_aaaa].
      replace (m_answer (set_extra _ _)) with (y :: ys) by reflexivity. rewrite S', HA. repeat split; reflexivity.
  - cbn [existsb]; rewrite R, RA. cbn [is_err orb has_aaaa]. rewrite andb_negb_r. repeat split; reflexivity.
  - cbn [existsb]; rewrite R, RA. cbn [is_err orb has_aaaa]. rewrite andb_negb_r. repeat split; reflexivity.
Qed.
End D64.

(** ** Rate limiter *)
Section Rate.
Import RateLimit_model.
Local Open Scope nat_scope.
Lemma rate_count ipString o limit h : forall s,
  let l := rate_all ipString o limit h s in let out := rl_run ipString o limit h s in
  times (int "query") l = length out /\ times (int "exceed") l = number over out /\ times (int "drop") l = number dropped out /\ length out = length h.
Proof.
  induction h as [|[now src] h IH]; intros s; [repeat split; reflexivity|]. cbn [rate_all rl_run]. rewrite !times_app.
  assert (E : let r := snd (rl_resolve ipString o limit src now s) in let b := rate_bumps ipString o limit src now s in
     times (int "query") b = 1 /\ times (int "exceed") b = one (over r) /\ times (int "drop") b = one (dropped r)).
  { unfold rate_bumps, rl_resolve. destruct (rl_count o _ _ s) as [[s' [|]]|]; [destruct limit| |]; repeat split; reflexivity. }
  destruct (rl_resolve ipString o limit src now s) as [s' r]. cbn [fst snd] in *. destruct E as (E1 & E2 & E3), (IH s') as (H1 & H2 & H3 & H4).
  rewrite E1, E2, E3, H1, H2, H3. unfold number. cbn [filter length]. rewrite H4. repeat split; try reflexivity.
  - destruct (over r); reflexivity.
  - destruct (dropped r); reflexivity.
Qed.
End Rate.

(** ** Router *)
Section Router.
Import Router_model.
Local Open Scope nat_scope.
Variable name : nat -> string.
Lemma router_count resolve now routes q ci calls r : router_resolve resolve now routes q ci = Some (calls, r) ->
  forall k, times ("route", k) (router_bumps name resolve now routes q ci) = number (fun c => String.eqb k (name (fst c))) calls /\
            times ("failure", k) (router_bumps name resolve now routes q ci) = number (fun c => String.eqb k (name (fst c)) && is_err (resolve (fst c) q ci)) calls.
Proof.
  unfold router_resolve, router_bumps. destruct (m_question q) as [|x l]; [discriminate|]. generalize 0 as i.
  induction routes as [|rt routes IH]; intros i; cbn [resolve_from router_from]; [intros [= <- <-] k; split; reflexivity|].
  destruct (route_match rt (now i) q ci) as [[|]|]; [|apply IH|discriminate].
  intros [= <- <-] k. unfold number. cbn [filter fst]. unfold times. cbn [filter]. unfold bump_eqb, Metrics_model.route. cbn [fst snd]. cbn [String.eqb Ascii.eqb Bool.eqb andb].
  destruct (is_err (resolve (r_resolver rt) q ci)); cbn [filter]; unfold failure; cbn [fst snd String.eqb Ascii.eqb Bool.eqb andb];
    destruct (String.eqb k (name (r_resolver rt))); split; reflexivity.
Qed.
Lemma router_gauge routes : router_available routes = Z.of_nat (length routes).
Proof.
  unfold router_available. assert (G : forall z, fold_left (fun z (_ : Router_model.route) => (z + 1)%Z) routes z = (z + Z.of_nat (length routes))%Z).
  { induction routes as [|x l IH]; intros z; cbn [fold_left length]; [lia|]. rewrite IH. lia. }
  rewrite G. lia.
Qed.
End Router.

(** ** Groups *)
Section Groups.
Variable name : nat -> string.
Lemma named_times_route k i : times ("route", k) [route name i] = one (String.eqb k (name i)).
Proof. unfold times, route. cbn [filter]. unfold bump_eqb. cbn [fst snd String.eqb Ascii.eqb Bool.eqb andb]. destruct (String.eqb k (name i)); reflexivity. Qed.
Lemma named_times_failure k i : times ("failure", k) [failure name i] = one (String.eqb k (name i)).
Proof. unfold times, failure. cbn [filter]. unfold bump_eqb. cbn [fst snd String.eqb Ascii.eqb Bool.eqb andb]. destruct (String.eqb k (name i)); reflexivity. Qed.
Lemma route_failure k i : times ("route", k) [failure name i] = 0.
Proof. reflexivity. Qed.
Lemma failure_route k i : times ("failure", k) [route name i] = 0.
Proof. reflexivity. Qed.
Lemma number_one {A} (f : A -> bool) x : number f [x] = one (f x).
Proof. unfold number. cbn. destruct (f x); reflexivity. Qed.
Lemma number_app {A} (f : A -> bool) l l' : number f (l ++ l') = number f l + number f l'.
Proof. unfold number. rewrite filter_app, app_length. reflexivity. Qed.

(** A machine whose threads wait for the resolver they asked last *)
Section Machine.
Context {S : Type} (step : S -> gevent -> option S) (bumps : S -> gevent -> list bump) (pcs : S -> nat -> pc) (bad : result -> bool).
Definition knows (past : list gevent) (s : S) : Prop := forall t i idx, pcs s t = Waiting i idx -> last_sent t past None = Some idx.
Hypothesis step_knows : forall past s e s', knows past s -> step s e = Some s' -> knows (past ++ [e])%list s'.
Hypothesis step_route : forall s e s' k, step s e = Some s' -> times ("route", k) (bumps s e) = number (fun i => String.eqb k (name i)) (sents [e]).
Hypothesis step_failure : forall past s e s' k, knows past s -> step s e = Some s' -> times ("failure", k) (bumps s e) = number (fun i => String.eqb k (name i)) (blamed bad past [e]).
Lemma machine_count l : forall past s s', knows past s -> exec step s l = Some s' -> forall k,
  times ("route", k) (exec_bumps step bumps s l) = number (fun i => String.eqb k (name i)) (sents l) /\
  times ("failure", k) (exec_bumps step bumps s l) = number (fun i => String.eqb k (name i)) (blamed bad past l).
Proof.
  induction l as [|e l IH]; intros past s s' K E k; [split; reflexivity|]. cbn [exec exec_bumps] in *. destruct (step s e) as [s1|] eqn:T; [|discriminate].
  destruct (IH (past ++ [e])%list s1 s' (step_knows _ _ _ _ K T) E k) as (H1 & H2). rewrite !times_app, H1, H2, (step_route _ _ _ k T), (step_failure _ _ _ _ k K T). split.
  - change (e :: l) with ([e] ++ l)%list. rewrite sents_app, number_app. reflexivity.
  - cbn [blamed]. rewrite app_nil_r, number_app. reflexivity.
Qed.
End Machine.
End Groups.
