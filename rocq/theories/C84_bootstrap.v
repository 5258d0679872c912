(** C84: host names looked up through the bootstrap resolver. *)
From Verif Require Import Base Bytes Dns Modifiers_spec Listener_model Client_model Client_spec Client_proofs Pipeline_model Pipeline_spec NetRes_model NetRes_spec NetRes_proofs.
Local Open Scope N_scope.

(** An exchange is one call of the resolver, or two if the first answer is truncated (and TCP was not asked for from the start). What a call becomes is
    the relation [round]: no answer fails; an answer that does not pack, or not into 1232 octets, fails; a message that is not a response to the
    question with the right ID is waited out for ever; one with further questions fails; all else is the result. *)
Theorem C84_exchange : forall resolve unpack pack parse useTCP n id q p, exists r t, round resolve unpack pack parse n id q p r t /\
  if t && negb useTCP
  then exists m r' t', unpack p = Some m /\ round resolve unpack pack parse (S n) id q p r' t' /\ exchange resolve unpack pack parse (networks useTCP) n id q p = ([(m, local); (m, local)], r')
  else exchange resolve unpack pack parse (networks useTCP) n id q p = (match unpack p with Some m => [(m, local)] | None => [] end, r).
Proof. exact exchange_spec. Qed.
Print Assumptions C84_exchange.
(** And that relation leaves no choice. *)
Theorem C84_round : forall resolve unpack pack parse n id q p r t r' t', round resolve unpack pack parse n id q p r t -> round resolve unpack pack parse n id q p r' t' -> r = r' /\ t = t'.
Proof. exact round_fun. Qed.
Print Assumptions C84_round.
(** What a lookup ends with is an answer of the resolver to one of its requests: a response with the ID of the request, to this question and no other, whole. *)
Theorem C84_answer : forall resolve unpack pack parse final useTCP q b rs n, snd (tryOneName resolve unpack pack parse final useTCP n q rs) = Got b ->
  final b = true /\ exists id p k a h, In (id, p) rs /\ gives resolve unpack k p a /\ fits pack a b /\ response_to parse id q b h /\ exists x, g_questions h = [x].
Proof. exact try_got. Qed.
Print Assumptions C84_answer.
(** The resolver is asked at most twice for each attempt, and only what was requested, in the name of this machine. *)
Theorem C84_calls : forall resolve unpack pack parse final useTCP q rs n, (length (fst (tryOneName resolve unpack pack parse final useTCP n q rs)) <= 2 * length rs)%nat /\
  Forall (fun c => snd c = local /\ exists id p, In (id, p) rs /\ unpack p = Some (fst c)) (fst (tryOneName resolve unpack pack parse final useTCP n q rs)).
Proof. exact try_calls. Qed.
Print Assumptions C84_calls.
(** It waits for ever exactly if a message is ignored. *)
Theorem C84_hangs : forall resolve unpack pack parse useTCP n id q p, snd (exchange resolve unpack pack parse (networks useTCP) n id q p) = Hang <->
  round resolve unpack pack parse n id q p Hang false \/ (useTCP = false /\ (exists b, round resolve unpack pack parse n id q p (Got b) true) /\ round resolve unpack pack parse (S n) id q p Hang false).
Proof. exact exchange_hangs. Qed.
Print Assumptions C84_hangs.
(** So no lookup does, if the resolver gives responses with the ID and the question of the query, *)
Theorem C84_ends : forall resolve unpack pack parse final useTCP q rs n, agree pack parse -> (forall id p, In (id, p) rs -> asks unpack id q p) ->
  (forall k m a, resolve k m local = Ans a -> m_id a = m_id m /\ m_response a = true /\ echoes m a) -> snd (tryOneName resolve unpack pack parse final useTCP n q rs) <> Hang.
Proof. exact try_sound. Qed.
Print Assumptions C84_ends.
(** which DoQ clients, and plain, DoT and DTLS clients see to, but for the flag that makes it a response. *)
Theorem C84_doq : forall unpack pack answer conn dials q a, (forall b a, unpack b = Some a -> opt_wf a) -> snd (doq_resolve unpack pack answer conn dials q) = Ans a -> m_id a = m_id q /\ echoes q a.
Proof. exact doq_sound. Qed.
Print Assumptions C84_doq.
Theorem C84_pipeline : forall l s k a, reached l s -> callers s k = CRet (Ans a) -> exists q, In (ECall k q) l /\ m_id a = m_id q /\ echoes q a.
Proof. exact pipe_sound. Qed.
Print Assumptions C84_pipeline.
(** An answer over 1232 octets, which all but plain UDP can bring, makes the lookup fail. *)
Theorem C84_large : forall resolve unpack pack parse useTCP n id q p a b, gives resolve unpack n p a -> pack a = Some b -> 1232 < N.of_nat (length b) -> snd (exchange resolve unpack pack parse (networks useTCP) n id q p) = Failed.
Proof. exact large. Qed.
Print Assumptions C84_large.

(** ** DoH clients do not see to the ID: with a server (or an HTTP cache before it) that answers with another, the lookup waits for ever *)
Definition boot : question := Q "dns.example." 1 1.
Definition asked : msg := set_question [boot] (set_id 7 empty_msg).
Definition served : msg := set_answer [RR "dns.example." 1 1 60 (DA [192;0;2;1])] (set_question [boot] (Msg 0 true 0 false false false false false false 0 [] [] [] [])).
(** Two messages, in an encoding of one octet *)
Definition same_head (a b : msg) : bool :=
  N.eqb (m_id a) (m_id b) && Bool.eqb (m_response a) (m_response b) && Bool.eqb (m_tc a) (m_tc b) &&
  match m_question a, m_question b with [x], [y] => String.eqb (q_name x) (q_name y) && N.eqb (q_type x) (q_type y) && N.eqb (q_class x) (q_class y) | _, _ => false end.
Definition pack2 (m : msg) : option bytes := if same_head m asked then Some [1] else if same_head m served then Some [2] else None.
Definition unpack2 (b : bytes) : option msg := match b with [1] => Some asked | [2] => Some served | _ => None end.
Definition parse2 (b : bytes) : option ghead := match unpack2 b with Some a => Some (GHead (m_id a) (m_response a) (m_tc a) (m_question a)) | None => None end.
Definition web (r : hreq) : option hresp := Some (HResp 200 "application/dns-message" [2] false).
Definition doh (n : nat) (m : msg) (ci : client) : result :=
  snd (doh_resolve (fun _ => 0) (fun _ => 0) unpack2 pack2 (fun _ => ""%string) (fun _ => Some "https://dns.example/"%string) web (DohCOpt "POST" "" false) m).
Lemma same_head_eq a b : same_head a b = true -> m_id a = m_id b /\ m_response a = m_response b /\ m_tc a = m_tc b /\ m_question a = m_question b.
Proof.
  unfold same_head. destruct (m_question a) as [|[n t c] [|? ?]], (m_question b) as [|[n' t' c'] [|? ?]]; rewrite ?andb_false_r; try discriminate. cbn [q_name q_type q_class].
  rewrite !andb_true_iff, !N.eqb_eq, !Bool.eqb_true_iff, String.eqb_eq. intros (((-> & ->) & ->) & (-> & ->) & ->). auto.
Qed.
Lemma agree2 : agree pack2 parse2.
Proof.
  intros a b. unfold pack2. destruct (same_head a asked) eqn:A; [|destruct (same_head a served) eqn:B]; intros [= <-].
  - apply same_head_eq in A as (-> & -> & -> & ->). reflexivity.
  - apply same_head_eq in B as (-> & -> & -> & ->). reflexivity.
Qed.
Lemma doh_serves n : doh n asked local = Ans served.
Proof.
  unfold doh. apply doh_answer. exists (HReq "POST" "https://dns.example/" [1]), (HResp 200 "application/dns-message" [2] false), [2]. split; [reflexivity|]. split; [reflexivity|]. split; [|split; [reflexivity|]].
  - repeat split; cbn; discriminate.
  - right. exists boot, [], boot, []. repeat split.
Qed.
Theorem C84_doh_refuted : exists unpack pack parse base optlen base64 expand http o p id q, agree pack parse /\ asks unpack id q p /\ (exists m a, unpack p = Some m /\
    snd (doh_resolve base optlen unpack pack base64 expand http o m) = Ans a /\ m_response a = true /\ echoes m a) /\
  forall useTCP n, snd (exchange (fun _ m _ => snd (doh_resolve base optlen unpack pack base64 expand http o m)) unpack pack parse (networks useTCP) n id q p) = Hang.
Proof.
  exists unpack2, pack2, parse2, (fun _ => 0), (fun _ => 0), (fun _ => ""%string), (fun _ => Some "https://dns.example/"%string), web, (DohCOpt "POST" "" false), [1], 7, boot.
  split; [exact agree2|]. split; [exists asked; repeat split|]. split.
  - exists asked, served. split; [reflexivity|]. split; [exact (doh_serves 0)|]. split; [reflexivity|]. right. exists boot, [], boot, []. repeat split.
  - intros useTCP n. apply C84_hangs. left. apply (round_other _ _ _ _ _ _ _ _ served [2]).
    + exists asked. split; [reflexivity|exact (doh_serves n)].
    + split; [reflexivity|cbn; discriminate].
    + intros h (P & _ & I & _). injection P as <-. discriminate.
Qed.
Print Assumptions C84_doh_refuted.

(** ** Cases: with the ID kept, truncated once *)
Definition good (tc : bool) : msg := set_tc tc (set_id 7 served).
Definition pack3 (m : msg) : option bytes := if same_head m (good true) then Some [3] else if same_head m (good false) then Some [4] else pack2 m.
Definition unpack3 (b : bytes) : option msg := match b with [3] => Some (good true) | [4] => Some (good false) | b => unpack2 b end.
Definition parse3 (b : bytes) : option ghead := match unpack3 b with Some a => Some (GHead (m_id a) (m_response a) (m_tc a) (m_question a)) | None => None end.
Definition first_cut (n : nat) (m : msg) (ci : client) : result := Ans (good (Nat.eqb n 0)).
Example cut_once : exchange first_cut unpack3 pack3 parse3 (networks false) 0 7 boot [1] = ([(asked, local); (asked, local)], Got [4]).
Proof. vm_compute. reflexivity. Qed.
(** A truncated answer counts if the second one is truncated too *)
Example cut_twice : exchange (fun _ => first_cut 0) unpack3 pack3 parse3 (networks false) 0 7 boot [1] = ([(asked, local); (asked, local)], Got [3]).
Proof. vm_compute. reflexivity. Qed.
Example fails_then_works : tryOneName (fun n _ _ => match n with 0%nat => Err "timeout" | 1%nat => Drop | _ => Ans (good false) end) unpack3 pack3 parse3 (fun _ => true) false 0 boot [(7, [1]); (7, [1]); (7, [1])]
  = ([(asked, local); (asked, local); (asked, local)], Got [4]).
Proof. vm_compute. reflexivity. Qed.
Lemma agree3 : agree pack3 parse3.
Proof.
  intros a b. unfold pack3. destruct (same_head a (good true)) eqn:A; [|destruct (same_head a (good false)) eqn:B].
  - intros [= <-]. apply same_head_eq in A as (-> & -> & -> & ->). reflexivity.
  - intros [= <-]. apply same_head_eq in B as (-> & -> & -> & ->). reflexivity.
  - unfold pack2. destruct (same_head a asked) eqn:C; [|destruct (same_head a served) eqn:D]; intros [= <-].
    + apply same_head_eq in C as (-> & -> & -> & ->). reflexivity.
    + apply same_head_eq in D as (-> & -> & -> & ->). reflexivity.
Qed.
Example ends_met : agree pack3 parse3 /\ asks unpack3 7 boot [1] /\ forall k, first_cut k asked local = Ans (good (Nat.eqb k 0)) /\ m_id (good (Nat.eqb k 0)) = m_id asked /\ m_response (good (Nat.eqb k 0)) = true /\ echoes asked (good (Nat.eqb k 0)).
Proof. split; [exact agree3|]. split; [exists asked; repeat split|]. intros k. repeat split. right. exists boot, [], boot, []. repeat split. Qed.
