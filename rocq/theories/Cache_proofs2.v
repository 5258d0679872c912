From Verif Require Import Base Base_proofs Bytes Bytes_proofs Dns Net Blob_model Blob_spec Blob_proofs
  Lru_model Lru_spec Lru_proofs Lru_proofs2 Cache_model Cache_spec Cache_proofs.
From Coq Require Import ZifyBool ZifyNat ZifyN.
Open Scope N_scope.

Lemma with_name_ok q n : query_ok q -> N.of_nat (String.length n) <= 65535 -> query_ok (with_name q n).
Proof.
  intros (A & B & C) Hn. unfold with_name. destruct (m_question q) as [|x l] eqn:E; [contradiction|].
  unfold query_ok. cbn [m_question set_question m_extra]. inversion B; subst. split; [discriminate|]. split; [|assumption].
  constructor; [|assumption]. cbn. tauto.
Qed.

Lemma minTTL_accepted min a : ttls_ok a -> (let '(amin, ok) := minTTL a in negb ok || (amin <? min)) = negb (accepted min a).
Proof.
  intros H. rewrite (minTTL_spec a H). unfold accepted. destruct (smallest (records a)) as [n|]; [|reflexivity]. 
  destruct (n =? max_ttl); cbn [negb orb andb]; [reflexivity|]. destruct (N.ltb_spec n min), (N.leb_spec min n); try reflexivity; lia.
Qed.

Section Inv.
Variable ipString : bytes -> string.
Variable pack : msg -> option bytes.
Variable unpack : bytes -> option msg.
Variable hash : lruKey -> N.
Hypothesis ip_ok : ip_text_ok ipString.

Notation keyq := (lruKeyFromQuery ipString).
Notation entries := (list (lruKey * bytes)).
Notation REP := (Rep lruKey bytes matchesKey hash).
Notation HSTEP := (hstep lruKey bytes hash key_eq).
Notation mlookup := (mem_lookup ipString unpack hash).

Definition OK (c : lru bytes) (s : entries) : Prop := REP c s /\ bounded lruKey bytes c s.

Lemma ok_step c s op : OK c s -> op_good lruKey bytes matchesKey op ->
  exists c', step lruKey bytes matchesKey hash c op = Some (c', snd (HSTEP (maxItems _ c) s op)) /\
    OK c' (fst (HSTEP (maxItems _ c) s op)) /\ maxItems _ c' = maxItems _ c.
Proof.
  intros [R Bd] G. destruct (step_rep _ _ _ _ key_eq c s op R Bd G) as (c' & A & B & C & D).
  exists c'. split; [exact A|]. split; [split; assumption|assumption].
Qed.

Lemma ok_get c s k : OK c s -> exists c',
  get lruKey bytes matchesKey hash k c = (c', lookup _ _ key_eq k s) /\ maxItems _ c' = maxItems _ c /\
  OK c' (match lookup _ _ key_eq k s with Some b => (k, b) :: drop _ _ key_eq k s | None => s end).
Proof.
  intros H. destruct (ok_step c s (Get _ _ k) H I) as (c' & A & B & C).
  cbn [hstep] in A, B. exists c'. cbn [step] in A.
  destruct (lookup lruKey bytes key_eq k s); cbn [snd fst] in *; inversion A; auto.
Qed.

Lemma ok_del c s k : OK c s -> exists c',
  delete lruKey bytes matchesKey hash k c = Some c' /\ maxItems _ c' = maxItems _ c /\ OK c' (drop _ _ key_eq k s).
Proof.
  intros H. destruct (ok_step c s (Del _ _ k) H I) as (c' & A & B & C).
  cbn [hstep fst snd step] in A, B. exists c'. destruct (delete _ _ _ _ _ _); cbn [option_map] in A; inversion A; subst; auto.
Qed.

Lemma ok_add c s k b : OK c s -> good _ _ matchesKey k b -> exists c',
  addKey lruKey bytes matchesKey hash k b c = Some c' /\ maxItems _ c' = maxItems _ c /\
  OK c' (cut _ _ (maxItems _ c) ((k, b) :: hdrop _ _ hash (hash k) s)).
Proof.
  intros H G. destruct (ok_step c s (Add _ _ k b) H G) as (c' & A & B & C).
  cbn [hstep fst snd step] in A, B. exists c'. destruct (addKey _ _ _ _ _ _ _); cbn [option_map] in A; inversion A; subst; auto.
Qed.

Lemma ok_new cap : OK (cache_new cap) [].
Proof. split; [apply new_rep|apply (new_bounded lruKey bytes matchesKey)]. Qed.

(* what a lookup sees of a list of entries *)
Definition view (s : entries) (q : msg) (now : Z) : option (msg * bool) :=
  match keyq q with
  | None => None
  | Some k => match lookup _ _ key_eq k s with Some b => mem_finish unpack q now b | None => None end
  end.

Lemma lookup_cons k k1 b1 (s : entries) :
  lookup _ _ key_eq k ((k1, b1) :: s) = if key_eq k k1 then Some b1 else lookup _ _ key_eq k s.
Proof. unfold lookup. cbn [List.find]. unfold keqb at 1. cbn [fst]. destruct (key_eq k k1); reflexivity. Qed.
Lemma drop_cons k k1 b1 (s : entries) :
  drop _ _ key_eq k ((k1, b1) :: s) = if key_eq k k1 then drop _ _ key_eq k s else (k1, b1) :: drop _ _ key_eq k s.
Proof. unfold drop. cbn [filter]. unfold keqb at 1. cbn [fst]. destruct (key_eq k k1); reflexivity. Qed.

Lemma lookup_drop k (s : entries) k' : lookup _ _ key_eq k' (drop _ _ key_eq k s) = if key_eq k' k then None else lookup lruKey bytes key_eq k' s.
Proof.
  induction s as [|[k1 b1] s IH]; [cbn; destruct (key_eq k' k); reflexivity|].
  rewrite drop_cons, lookup_cons. destruct (key_eq k k1) as [<-|].
  - rewrite IH. destruct (key_eq k' k); reflexivity.
  - rewrite lookup_cons, IH. destruct (key_eq k' k1) as [->|]; [|reflexivity].
    destruct (key_eq k1 k); [congruence|reflexivity].
Qed.

Lemma lookup_front k b (s : entries) k' : lookup _ _ key_eq k s = Some b ->
  lookup _ _ key_eq k' ((k, b) :: drop _ _ key_eq k s) = lookup lruKey bytes key_eq k' s.
Proof.
  intros H. rewrite lookup_cons, lookup_drop. destruct (key_eq k' k) as [->|Hn]; [congruence|reflexivity].
Qed.

(* sublist as sets *)
Lemma drop_in k (s : entries) e : In e (drop _ _ key_eq k s) -> In e s.
Proof. unfold drop. rewrite filter_In. tauto. Qed.

Lemma ok_lookup c s q now : OK c s -> query_ok q -> exists c' s',
  mlookup q now c = Some (c', view s q now) /\ OK c' s' /\ maxItems _ c' = maxItems _ c /\
  (forall e, In e s' -> In e s) /\ (forall q', view s' q' now = view s q' now \/ (keyq q' = keyq q /\ view s q now = None)) /\
  (forall q', query_ok q' -> keyq q' = keyq q -> view s q now = None -> view s' q' now = None \/ view s' q' now = view s q' now).
Proof.
  intros H Hq. destruct (query_key ipString ip_ok q Hq) as (k & Hk & _). unfold mem_lookup, view at 1. rewrite Hk.
  destruct (ok_get c s k H) as (c1 & E1 & M1 & O1). rewrite E1.
  destruct (lookup _ _ key_eq k s) as [b|] eqn:L.
  - assert (In1 : forall e, In e ((k, b) :: drop _ _ key_eq k s) -> In e s).
    { intros e [<-|He]; [eapply lookup_in; eauto|eapply drop_in; eauto]. }
    assert (V1 : forall q', view ((k, b) :: drop _ _ key_eq k s) q' now = view s q' now).
    { intros q'. unfold view. destruct (keyq q') as [k'|]; [|reflexivity]. rewrite (lookup_front _ _ _ _ L). reflexivity. }
    destruct (mem_finish unpack q now b) as [a|] eqn:F.
    + exists c1, ((k, b) :: drop _ _ key_eq k s). repeat split; auto; try apply O1.
    + unfold mem_evict. rewrite Hk. destruct (ok_del c1 _ k O1) as (c2 & E2 & M2 & O2). rewrite E2. cbn [option_map].
      exists c2, (drop _ _ key_eq k ((k, b) :: drop _ _ key_eq k s)). repeat split; auto; try apply O2; try congruence.
      * intros e He. apply In1. eapply drop_in; eauto.
      * intros q'. rewrite <- V1. unfold view. destruct (keyq q') as [k'|] eqn:Hk'; [|auto]. rewrite lookup_drop.
        destruct (key_eq k' k) as [->|]; [right|left; reflexivity]. split; [congruence|].
        rewrite Hk, L. exact F.
      * intros q' Hq' Hk'. left. unfold view. rewrite Hk', lookup_drop. destruct (key_eq k k); [reflexivity|congruence].
  - exists c1, s. repeat split; auto; apply O1.
Qed.

(** The invariant along a history. *)
Variable o : options.

Definition stores (e : event) : option (msg * Z * msg) :=
  match arrival e with
  | Some (q, t, a) => if m_tc a then None else match storeInCache o t a, pack a with Some _, Some _ => Some (q, t, a) | _, _ => None end
  | None => None
  end.

(* entry (k,b) was put there by event e *)
Definition by_event (k : lruKey) (b : bytes) (e : event) : Prop :=
  exists q t a m, stores e = Some (q, t, a) /\ event_ok e /\ keyq q = Some k /\ storeInCache o t a = Some m /\ newCacheBlob pack k m a = Some b.

Definition newest (k : lruKey) (l : list event) : Prop :=
  forall e q t a, In e l -> stores e = Some (q, t, a) -> keyq q <> Some k.

Definition from_history (l : list event) (s : entries) : Prop :=
  forall k b, In (k, b) s -> exists l1 e l2, l = l1 ++ e :: l2 /\ by_event k b e /\ newest k l2.

Lemma from_history_sub l s s' : from_history l s -> (forall e, In e s' -> In e s) -> from_history l s'.
Proof. intros H I' k b Hin. apply H, I', Hin. Qed.

Lemma from_history_skip l s e : from_history l s -> stores e = None -> from_history (l ++ [e]) s.
Proof.
  intros H Hs k b Hin. destruct (H k b Hin) as (l1 & e0 & l2 & -> & B & N).
  exists l1, e0, (l2 ++ [e]). split; [rewrite <- app_assoc; reflexivity|]. split; [assumption|].
  intros e' q t a He' Hst. apply in_app_or in He'. destruct He' as [He'|[<-|[]]]; [eapply N; eauto|congruence].
Qed.

Lemma cut_in' cap (s : entries) e : In e (cut _ _ cap s) -> In e s.
Proof. unfold cut. destruct (cap <=? 0)%Z; [auto|]. apply firstn_in. Qed.

Lemma hdrop_in h (s : entries) k b : In (k, b) (hdrop _ _ hash h s) -> In (k, b) s /\ hash k <> h.
Proof. unfold hdrop. rewrite filter_In. cbn [fst]. intros [A B]. split; [assumption|]. destruct (N.eqb_spec h (hash k)); [discriminate|congruence]. Qed.

Lemma good_blob k m w b : key_ok k -> newCacheBlobFromWire k m w = Some b -> good _ _ matchesKey k b.
Proof. intros. intros k'. eapply f_matches; eauto. Qed.

Lemma ok_store c s l e q t a m :
  OK c s -> from_history l s -> event_ok e -> query_ok q ->
  arrival e = Some (q, t, a) -> m_tc a = false -> storeInCache o t a = Some m ->
  exists c' s', mem_store ipString pack hash q m a c = Some c' /\ OK c' s' /\ maxItems _ c' = maxItems _ c /\ from_history (l ++ [e]) s'.
Proof.
  intros H F He Hq Ha Htc Hm. destruct (query_key ipString ip_ok q Hq) as (k & Hk & Kok). unfold mem_store, newCacheBlob. rewrite Hk.
  destruct (pack a) as [w|] eqn:P.
  - destruct (newBlob_total k m w Kok) as (b & Hb). rewrite Hb.
    destruct (ok_add c s k b H (good_blob _ _ _ _ Kok Hb)) as (c' & E & M & O').
    eexists c', _. split; [exact E|]. split; [exact O'|]. split; [exact M|].
    assert (St : stores e = Some (q, t, a)) by (unfold stores; rewrite Ha, Htc, Hm, P; reflexivity).
    intros k1 b1 Hin. apply cut_in' in Hin. destruct Hin as [[= <- <-]|Hin].
    + exists l, e, []. split; [reflexivity|]. split; [|intros ? ? ? ? []]. exists q, t, a, m. repeat split; auto.
      unfold newCacheBlob. rewrite P. exact Hb.
    + apply hdrop_in in Hin. destruct Hin as [Hin Hh]. destruct (F _ _ Hin) as (l1 & e0 & l2 & -> & B & N).
      exists l1, e0, (l2 ++ [e]). split; [rewrite <- app_assoc; reflexivity|]. split; [assumption|].
      intros e' q' t' a' He' Hst. apply in_app_or in He'. destruct He' as [He'|[<-|[]]]; [eapply N; eauto|].
      rewrite St in Hst. inversion Hst; subst. intros E'. apply Hh. congruence.
  - exists c, s. split; [reflexivity|]. split; [assumption|]. split; [reflexivity|]. apply from_history_skip; [assumption|].
    unfold stores. rewrite Ha, Htc, Hm, P. reflexivity.
Qed.

(* the hardening loop, against the view *)
Fixpoint harden_view (s : entries) (q : msg) (now : Z) (names : list string) : option (msg * bool) :=
  match names with
  | [] => None
  | n :: names' =>
      match view s (with_name q n) now with
      | Some (a, _) => if m_rcode a =? RcodeNameError then Some (nxdomain q, false) else None
      | None => harden_view s q now names'
      end
  end.

Lemma finish_none q q' now b : mem_finish unpack q now b = None -> mem_finish unpack q' now b = None.
Proof.
  unfold mem_finish. destruct (b_expiry b <? now)%Z; [auto|]. destruct (unpack (b_message b)) as [a|]; [|auto].
  unfold ageCachedAnswer. cbn [m_answer m_ns m_extra set_question set_id].
  destruct (age_rrs _ (m_answer a)); [|auto]. destruct (age_rrs _ (m_ns a)); [|auto]. destruct (age_rrs _ (m_extra a)); [discriminate|auto].
Qed.

Lemma view_key_none s q q' now : keyq q' = keyq q -> view s q now = None -> view s q' now = None.
Proof.
  unfold view. intros ->. destruct (keyq q); [|auto]. destruct (lookup _ _ _ _ _); [|auto]. apply finish_none.
Qed.

Lemma view_stable c s q now : OK c s -> query_ok q -> exists c' s',
  mlookup q now c = Some (c', view s q now) /\ OK c' s' /\ maxItems _ c' = maxItems _ c /\
  (forall e, In e s' -> In e s) /\ (forall q', query_ok q' -> view s' q' now = view s q' now).
Proof.
  intros H Hq. destruct (ok_lookup c s q now H Hq) as (c' & s' & A & B & M & C & D & E).
  exists c', s'. repeat split; try assumption; try apply B. intros q' Hq'.
  destruct (D q') as [D'|[D1 D2]]; [assumption|].
  destruct (E q' Hq' D1 D2) as [E'|E']; [|assumption]. rewrite E'. symmetry. eapply view_key_none; eauto.
Qed.

Lemma ok_harden q now names : forall c s, OK c s -> query_ok q ->
  Forall (fun n => N.of_nat (String.length n) <= 65535) names ->
  exists c' s', harden_loop ipString unpack hash q now names c = Some (c', harden_view s q now names) /\
    OK c' s' /\ maxItems _ c' = maxItems _ c /\ (forall e, In e s' -> In e s).
Proof.
  induction names as [|n names IH]; intros c s H Hq Hn; cbn [harden_loop harden_view].
  - exists c, s. repeat split; auto; apply H.
  - inversion Hn as [|? ? N1 N2]; subst.
    destruct (view_stable c s (with_name q n) now H (with_name_ok _ _ Hq N1)) as (c1 & s1 & E1 & O1 & M1 & I1 & V1).
    rewrite E1. destruct (view s (with_name q n) now) as [[a pf]|] eqn:V.
    + exists c1, s1. repeat split; auto; try apply O1. destruct (m_rcode a =? RcodeNameError); reflexivity.
    + destruct (IH c1 s1 O1 Hq N2) as (c2 & s2 & E2 & O2 & M2 & I2). exists c2, s2. rewrite E2. repeat split; auto; try apply O2; try congruence.
      do 2 f_equal. clear -V1 N2 Hq ip_ok. induction names as [|n' names IH]; cbn [harden_view]; [reflexivity|].
      inversion N2; subst. rewrite (V1 _ (with_name_ok _ _ Hq H1)). destruct (view s (with_name q n') now) as [[? ?]|]; auto.
Qed.

Lemma append_length a b : String.length (a ++ b)%string = (String.length a + String.length b)%nat.
Proof. induction a as [|c a IH]; cbn; [reflexivity|]. rewrite IH. reflexivity. Qed.

Lemma join_len_app l : forall x, String.length (join dot (x :: l)) = (String.length x + fold_right (fun y n => S (String.length y) + n) 0 l)%nat.
Proof.
  induction l as [|y l IH]; intros x; [cbn; lia|].
  change (join dot (x :: y :: l)) with (x ++ String dot (join dot (y :: l)))%string.
  rewrite append_length. cbn [String.length fold_right]. rewrite IH. lia.
Qed.

Lemma joins_from_len l : forall n, In n (joins_from l) -> (String.length n <= fold_right (fun y n => S (String.length y) + n) 0 l)%nat.
Proof.
  induction l as [|x l IH]; intros n; cbn [joins_from In]; [contradiction|]. intros [<-|H].
  - rewrite join_len_app. cbn [fold_right]. lia.
  - apply IH in H. cbn [fold_right]. lia.
Qed.

Lemma ancestors_len name : Forall (fun n => (String.length n <= String.length name)%nat) (ancestors name).
Proof.
  apply Forall_forall. intros n Hn. unfold ancestors in Hn. apply firstn_in in Hn. apply joins_from_len in Hn.
  rewrite <- (join_split dot name). destruct (split dot name) as [|x l]; [cbn in *; lia|].
  cbn [List.tl] in Hn. rewrite join_len_app. lia.
Qed.

(* what answering from the cache gives, against the view *)
Definition answer_view (s : entries) (f : msg -> msg) (q : msg) (now : Z) : option (msg * bool) :=
  match view s q now with
  | Some (a, pf) => Some (f a, pf)
  | None => if o_harden o then match m_question q with x :: _ => harden_view s q now (ancestors (q_name x)) | [] => None end else None
  end.

Lemma ok_answer c s f q now : OK c s -> query_ok q -> exists c' s',
  answerFromCache ipString unpack hash o f q now c = Some (c', answer_view s f q now) /\ OK c' s' /\
  maxItems _ c' = maxItems _ c /\ (forall e, In e s' -> In e s).
Proof.
  intros H Hq. unfold answerFromCache, answer_view.
  destruct (view_stable c s q now H Hq) as (c1 & s1 & E1 & O1 & M1 & I1 & V1). rewrite E1.
  destruct (view s q now) as [[a pf]|]; [exists c1, s1; repeat split; auto; apply O1|].
  destruct (o_harden o); [|exists c1, s1; repeat split; auto; apply O1].
  pose proof Hq as (Hne & Hf & _). destruct (m_question q) as [|x l]; [contradiction|].
  assert (Hn : Forall (fun n => N.of_nat (String.length n) <= 65535) (ancestors (q_name x))).
  { inversion Hf as [|? ? (_ & _ & L) _]; subst. eapply Forall_impl; [|apply ancestors_len]. cbn. intros. lia. }
  destruct (ok_harden q now _ c1 s1 O1 Hq Hn) as (c2 & s2 & E2 & O2 & M2 & I2). exists c2, s2. rewrite E2. repeat split; auto; try apply O2; try congruence.
  do 2 f_equal. clear - V1 Hn Hq ip_ok. induction (ancestors (q_name x)) as [|n' names IH]; cbn [harden_view]; [reflexivity|].
  inversion Hn; subst. rewrite (V1 _ (with_name_ok _ _ Hq H1)). destruct (view s (with_name q n') now) as [[? ?]|]; auto.
Qed.

Definition is_flush (q : msg) : bool :=
  negb (String.eqb (o_flush o) "") && (match m_question q with x :: _ => String.eqb (o_flush o) (q_name x) | [] => false end).

Lemma ok_resolve_lookup c s f q now : OK c s -> query_ok q -> exists c' s' r,
  resolve_lookup ipString unpack hash o f q now c = Some (c', r) /\ OK c' s' /\
  maxItems _ c' = maxItems _ c /\ (forall e, In e s' -> In e s) /\
  match r with
  | Some (a, Flushed) => is_flush q = true /\ a = set_reply empty_msg q
  | Some (a, _) => exists pf, is_flush q = false /\ answer_view s f q now = Some (a, pf)
  | None => is_flush q = false /\ answer_view s f q now = None
  end.
Proof.
  intros H Hq. unfold resolve_lookup. fold (is_flush q). destruct (is_flush q) eqn:Fl.
  - exists (reset bytes c), [], (Some (set_reply empty_msg q, Flushed)). repeat split; auto; try (destruct H as [H _]; eapply reset_rep; eauto).
    + unfold bounded. cbn [length]. destruct (Z_le_dec (maxItems _ c) 0); [left; assumption|right]. cbn [maxItems reset]. lia.
    + intros e [].
  - destruct (ok_answer c s f q now H Hq) as (c' & s' & E & O' & M & I'). rewrite E.
    exists c', s'. destruct (answer_view s f q now) as [[a pf]|]; [|exists None; repeat split; auto; apply O'].
    destruct (pf && (0 <? o_trigger o)); [destruct (minTTL a) as [mn ok]; destruct (ok && (mn <? o_trigger o))|];
    eexists; (split; [reflexivity|]; split; [exact O'|]; split; [exact M|]; split; [exact I'|eauto]).
Qed.

Lemma ok_exec c s l e : OK c s -> from_history l s -> event_ok e -> exists c' s',
  exec ipString pack unpack hash o c e = Some c' /\ OK c' s' /\ maxItems _ c' = maxItems _ c /\ from_history (l ++ [e]) s'.
Proof.
  intros H F He. destruct e as [q t f|q t up|q mn t up|t|q]; cbn [exec].
  - destruct He as [Hq Ht]. destruct (ok_resolve_lookup c s f q t H Hq) as (c' & s' & r & E & O' & M & I' & _). rewrite E. cbn.
    exists c', s'. repeat split; auto; try apply O'. apply from_history_skip; [|reflexivity]. eapply from_history_sub; eauto.
  - pose proof He as (Hq & Ht & Hu). unfold resolve_finish.
    destruct up as [a| |]; [|exists c, s; repeat split; auto; try apply H; apply from_history_skip; auto ..].
    destruct (m_tc a) eqn:Tc; [exists c, s; repeat split; auto; try apply H; apply from_history_skip; auto; unfold stores; cbn [arrival]; rewrite Tc; reflexivity|].
    destruct (storeInCache o t a) as [m|] eqn:Sm.
    + destruct (ok_store c s l (EStore q t (Ans a)) q t a m H F He Hq eq_refl Tc Sm) as (c' & s' & E & O' & M & F'). rewrite E. cbn.
      exists c', s'. repeat split; auto; apply O'.
    + exists c, s. repeat split; auto; try apply H. apply from_history_skip; auto. unfold stores. cbn [arrival]. rewrite Tc, Sm. reflexivity.
  - pose proof He as (Hq & Ht & Hu). unfold prefetch_done.
    destruct up as [a| |]; [|exists c, s; repeat split; auto; try apply H; apply from_history_skip; auto ..].
    destruct (m_tc a) eqn:Tc.
    { exists c, s. repeat split; auto; try apply H. apply from_history_skip; auto. unfold stores. cbn [arrival]. destruct (accepted mn a); [|reflexivity]. rewrite Tc; reflexivity. }
    pose proof (minTTL_accepted mn a Hu) as MA. destruct (minTTL a) as [am ok]. rewrite MA.
    destruct (accepted mn a) eqn:Acc; cbn [negb].
    2: { exists c, s. repeat split; auto; try apply H. apply from_history_skip; auto. unfold stores. cbn [arrival]. rewrite Acc. reflexivity. }
    destruct (storeInCache o t a) as [m|] eqn:Sm.
    + destruct (ok_store c s l (EPrefetch q mn t (Ans a)) q t a m H F He Hq) as (c' & s' & E & O' & M & F'); auto.
      { cbn [arrival]. rewrite Acc. reflexivity. }
      rewrite E. exists c', s'. repeat split; auto; apply O'.
    + exists c, s. repeat split; auto; try apply H. apply from_history_skip; auto. unfold stores. cbn [arrival]. rewrite Acc, Tc, Sm. reflexivity.
  - destruct (ok_step c s (DelFunc _ _ (fun b => (b_expiry b <? t)%Z)) H I) as (c' & A & B & C).
    cbn [hstep fst snd step] in A, B. unfold mem_gc. destruct (deleteFunc _ _ _) as [c''|]; cbn [option_map] in A; [|discriminate].
    inversion A; subst. eexists _, _. split; [reflexivity|]. split; [exact B|]. split; [assumption|].
    apply from_history_skip; [|reflexivity]. eapply from_history_sub; eauto. intros e. rewrite filter_In. tauto.
  - destruct (query_key ipString ip_ok q He) as (k & Hk & _). unfold mem_evict. rewrite Hk.
    destruct (ok_del c s k H) as (c' & E & M & O'). exists c', (drop _ _ key_eq k s). repeat split; auto; try apply O'.
    apply from_history_skip; [|reflexivity]. eapply from_history_sub; eauto. intros e. apply drop_in.
Qed.

Lemma ok_exec_all l : forall c s l0, OK c s -> from_history l0 s -> Forall event_ok l -> exists c' s',
  exec_all ipString pack unpack hash o c l = Some c' /\ OK c' s' /\ maxItems _ c' = maxItems _ c /\ from_history (l0 ++ l) s'.
Proof.
  induction l as [|e l IH]; intros c s l0 H F Hl; cbn [exec_all].
  - exists c, s. rewrite app_nil_r. repeat split; auto; apply H.
  - inversion Hl; subst. destruct (ok_exec c s l0 e H F) as (c1 & s1 & E & O1 & M1 & F1); [assumption|]. rewrite E.
    destruct (IH c1 s1 (l0 ++ [e]) O1 F1) as (c2 & s2 & E2 & O2 & M2 & F2); [assumption|]. exists c2, s2.
    rewrite <- app_assoc in F2. cbn [app] in F2. repeat split; auto; try apply O2. congruence.
Qed.

(** What a view of a history's entries is. *)
Hypothesis o_ok : opts_ok o.

Lemma arrival_ok e q t a : event_ok e -> arrival e = Some (q, t, a) -> query_ok q /\ now_ok t /\ ttls_ok a.
Proof.
  destruct e as [q0 t0 f|q0 t0 up|q0 mn t0 up|t0|q0]; cbn [arrival event_ok]; try discriminate;
  destruct up as [a0| |]; try discriminate.
  - intros (A & B & C) [= <- <- <-]. auto.
  - intros (A & B & C). destruct (accepted mn a0); [|discriminate]. intros [= <- <- <-]. auto.
Qed.

Lemma view_source l s q now r pf :
  from_history l s -> Forall event_ok l -> query_ok q ->
  (forall e q0 t0 a w, In e l -> arrival e = Some (q0, t0, a) -> pack a = Some w -> unpack w = Some a) ->
  view s q now = Some (r, pf) -> hit_source pack o l q now r.
Proof.
  intros F Hl Hq Hfa V. unfold view in V. destruct (keyq q) as [k|] eqn:Hk; [|discriminate].
  destruct (lookup _ _ key_eq k s) as [b|] eqn:L; [|discriminate]. apply lookup_in in L.
  destruct (F _ _ L) as (l1 & e & l2 & El & (q0 & t0 & a & m & St & Eok & Hk0 & Sm & Nb) & Nw).
  assert (Har : arrival e = Some (q0, t0, a) /\ m_tc a = false).
  { unfold stores in St. destruct (arrival e) as [[[q1 t1] a1]|]; [|discriminate]. destruct (m_tc a1) eqn:Tc; [discriminate|].
    destruct (storeInCache o t1 a1); [|discriminate]. destruct (pack a1); [|discriminate]. inversion St; subst. auto. }
  destruct Har as [Har Tc]. destruct (arrival_ok _ _ _ _ Eok Har) as (Hq0 & Ht0 & Htt).
  destruct (query_key ipString ip_ok q0 Hq0) as (k0 & Hk0' & Kok). assert (k0 = k) by congruence. subst k0.
  pose proof (storeInCache_spec o t0 a Htt Tc) as SP. rewrite Sm in SP. destruct (lifetime o a) as [n|] eqn:Ln; [|contradiction].
  destruct SP as [Sts Sex]. pose proof (lifetime_bound _ _ _ o_ok Htt Ln) as Bn.
  unfold newCacheBlob in Nb. destruct (pack a) as [w|] eqn:P; [|discriminate].
  assert (T1 : time_ok (mt_timestamp m)).
  { rewrite Sts. unfold time_ok, i64_ok, now_ok in *. lia. }
  assert (T2 : time_ok (mt_expiry m)).
  { rewrite Sex. unfold time_ok, i64_ok, now_ok, add_seconds, a_second, second, max_ttl, Cache_model.MaxUint32 in *. lia. }
  pose proof (f_ts _ _ _ _ Kok Nb T1) as Bts. pose proof (f_ex _ _ _ _ Kok Nb T2) as Bex. pose proof (f_message _ _ _ _ Kok Nb) as Bm.
  rewrite Sts in Bts. rewrite Sex in Bex. cbn [unixNano] in Bts, Bex. unfold add_seconds in Bex.
  unfold mem_finish in V. rewrite Bex, Bts, Bm in V. change a_second with second in *; destruct (Z.ltb_spec (t0 + Z.of_N n * second) now) as [|Lt]; [discriminate|].
  assert (Hun : unpack w = Some a). { eapply Hfa; [|exact Har|exact P]. rewrite El. apply in_or_app. right. left. reflexivity. }
  rewrite Hun in V. destruct (ageCachedAnswer a q (cacheAge now t0)) as [r'|] eqn:Ag; [|discriminate]. inversion V; subst r' pf.
  apply aged_sound in Ag; [|unfold max_ttl, Cache_model.MaxUint32, second in *; lia].
  exists l1, e, l2, q0, t0, a, n. repeat split; auto; try apply Ag.
  - apply (key_iff ipString ip_ok); [exact Hq0|exact Hq|congruence].
  - intros e' q' t' a' He' Ha' Hl' Hp' Hs'.
    assert (Eok' : event_ok e'). { rewrite Forall_forall in Hl. apply Hl. rewrite El. apply in_or_app. right. right. exact He'. }
    destruct (arrival_ok _ _ _ _ Eok' Ha') as (Hq' & Ht' & Htt').
    refine (Nw e' q' t' a' He' _ _).
    + unfold stores. rewrite Ha'. destruct (m_tc a') eqn:Tc'; [exfalso; apply Hl'; unfold lifetime; rewrite Tc'; reflexivity|].
      pose proof (storeInCache_spec o t' a' Htt' Tc') as SP'. destruct (storeInCache o t' a'); [|destruct (lifetime o a'); [contradiction|congruence]].
      destruct (pack a'); [reflexivity|congruence].
    + rewrite <- Hk. apply (key_iff ipString ip_ok); [exact Hq'|exact Hq|exact Hs'].
Qed.
End Inv.
