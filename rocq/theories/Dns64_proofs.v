(** Lemmas about DNS64. *)
From Verif Require Import Base Bytes Net Dns Cidr_model Cidr_spec Cidr_proofs2 Cidr_proofs3 Net_spec Net_proofs Router_model Router_proofs Dns64_model Dns64_spec.
From Coq Require Import ZifyBool ZifyNat ZifyN.
Local Open Scope nat_scope.

Lemma land_255 x : (x < 256)%N -> N.land x 255 = x.
Proof. intros H. change 255%N with (N.ones 8). rewrite N.land_ones. apply N.mod_small. exact H. Qed.

Lemma explicit16 (a : bytes) : length a = 16 -> exists a0 a1 a2 a3 a4 a5 a6 a7 a8 a9 a10 a11 a12 a13 a14 a15,
  a = [a0;a1;a2;a3;a4;a5;a6;a7;a8;a9;a10;a11;a12;a13;a14;a15].
Proof.
  intros L. do 16 (destruct a as [|? a]; [discriminate L|]). destruct a; [|discriminate L]. repeat eexists.
Qed.
Lemma explicit4 (a : bytes) : length a = 4 -> exists a0 a1 a2 a3, a = [a0;a1;a2;a3].
Proof. intros L. do 4 (destruct a as [|? a]; [discriminate L|]). destruct a; [|discriminate L]. repeat eexists. Qed.

Theorem synth_embedded a pl v : bytes_ok a -> length a = 16 -> In pl [32; 40; 48; 56; 64; 96] -> length v = 4 ->
  embedded a pl v (synthesizeIPv6 (D64Prefix (land_bytes a (mask_bytes pl 16)) pl) v).
Proof.
  intros B L P Lv. apply explicit16 in L. destruct L as (a0 & a1 & a2 & a3 & a4 & a5 & a6 & a7 & a8 & a9 & a10 & a11 & a12 & a13 & a14 & a15 & ->).
  apply explicit4 in Lv. destruct Lv as (v0 & v1 & v2 & v3 & ->).
  repeat match goal with H : bytes_ok (_ :: _) |- _ => inversion H; clear H; subst | H : Forall _ (_ :: _) |- _ => inversion H; clear H; subst end.
  unfold byte_ok in *.
  assert (Z0 : forall x, N.land x 0 = 0%N) by (intros x; apply N.land_0_r).
  cbn [In] in P. repeat destruct P as [P|P]; try contradiction; subst pl;
    match goal with |- context [mask_bytes ?p 16] => let m := eval vm_compute in (mask_bytes p 16) in change (mask_bytes p 16) with m end;
    cbn [land_bytes]; rewrite ?land_255 by assumption; rewrite ?Z0;
    unfold synthesizeIPv6; cbn [p64_len p64_ip app firstn puts put repeat nth Nat.eqb];
    (constructor;
     [ reflexivity
     | intros j Hj; cbn in Hj; do 13 (destruct j as [|j]; [first [reflexivity|lia]|]); lia
     | intros i Hi; do 4 (destruct i as [|i]; [reflexivity|]); lia
     | intros Hn; first [reflexivity|congruence]
     | intros j Hj Hn; cbn in Hj;
       pose proof (Hn 0 ltac:(lia)) as H0'; pose proof (Hn 1 ltac:(lia)) as H1'; pose proof (Hn 2 ltac:(lia)) as H2'; pose proof (Hn 3 ltac:(lia)) as H3';
       cbn in H0', H1', H2', H3';
       do 16 (destruct j as [|j]; [first [reflexivity|lia]|]); lia ]).
Qed.

(** An embedded address is determined by what the specification says, and gives the IPv4 address back. *)
Theorem extract_embedded a pl v r : In pl [32; 40; 48; 56; 64; 96] -> length v = 4 -> embedded a pl v r -> extracted pl r = v.
Proof.
  intros P Lv E. apply explicit4 in Lv. destruct Lv as (v0 & v1 & v2 & v3 & ->). unfold extracted. cbn [map].
  rewrite !(emb_octets _ _ _ _ E) by lia. reflexivity.
Qed.
Theorem embedded_unique a pl v r r' : In pl [32; 40; 48; 56; 64; 96] -> embedded a pl v r -> embedded a pl v r' -> r = r'.
Proof.
  intros P E E'. apply (nth_ext _ _ 0%N 0%N); [rewrite (emb_length _ _ _ _ E), (emb_length _ _ _ _ E'); reflexivity|].
  intros j Hj. rewrite (emb_length _ _ _ _ E) in Hj.
  destruct (le_lt_dec (Nat.div pl 8) j) as [L|L]; [|rewrite (emb_prefix _ _ _ _ E j L), (emb_prefix _ _ _ _ E' j L); reflexivity].
  assert (D : (exists i, i < 4 /\ j = octet_place pl i) \/ forall i, i < 4 -> j <> octet_place pl i).
  { destruct (Nat.eq_dec j (octet_place pl 0)); [left; exists 0; split; [lia|assumption]|].
    destruct (Nat.eq_dec j (octet_place pl 1)); [left; exists 1; split; [lia|assumption]|].
    destruct (Nat.eq_dec j (octet_place pl 2)); [left; exists 2; split; [lia|assumption]|].
    destruct (Nat.eq_dec j (octet_place pl 3)); [left; exists 3; split; [lia|assumption]|].
    right. intros i Hi. do 4 (destruct i as [|i]; [assumption|]). lia. }
  destruct D as [(i & Hi & ->)|D].
  - rewrite (emb_octets _ _ _ _ E i Hi), (emb_octets _ _ _ _ E' i Hi). reflexivity.
  - rewrite (emb_suffix _ _ _ _ E j), (emb_suffix _ _ _ _ E' j); try assumption; try reflexivity; lia.
Qed.

(** ** Prefixes *)
Lemma parse_prefix_spec parseAddr s p : parse_ok parseAddr -> parse_prefix parseAddr s = Some p ->
  exists a pl, prefix_text parseAddr s (a, pl) /\ bytes_ok a /\ p = D64Prefix (land_bytes a (mask_bytes pl 16)) pl.
Proof.
  intros PO. unfold parse_prefix. destruct (parseCIDR parseAddr s) as [[ip n]|] eqn:E; [|discriminate].
  destruct (Nat.eqb_spec (c_bits n) 128) as [B|]; [|discriminate]. cbn [negb].
  destruct (existsb (Nat.eqb (c_ones n)) d64_lengths) eqn:V; [|discriminate]. cbn [negb]. intros H. injection H as <-.
  assert (C : contains slash s = true).
  { destruct (contains slash s) eqn:C; [reflexivity|]. apply cut_slash_none in C. unfold parseCIDR in E. rewrite C in E. discriminate E. }
  assert (P := parse_cidr parseAddr PO s C). rewrite E in P. destruct P as (x & d & a & v & Es & Cx & Pa & D & L & _ & ->).
  cbn [c_bits c_ones c_ip] in *. assert (La : length a = 16) by lia. assert (Oa := proj1 (PO _ _ Pa)).
  exists a, (N.to_nat v). split; [|split; [apply Oa|]].
  - split; [exists x, d, v; repeat split; try assumption; apply D|]. split; [exact La|]. cbn [snd].
    apply existsb_exists in V. destruct V as (y & Hy & Ey). apply Nat.eqb_eq in Ey. rewrite Ey. exact Hy.
  - rewrite La. unfold to16. rewrite land_len by exact La. reflexivity.
Qed.
Lemma parse_prefix_none parseAddr s n : parse_ok parseAddr -> prefix_text parseAddr s n -> parse_prefix parseAddr s <> None.
Proof.
  intros PO (T & L & I). destruct n as [a pl]. cbn [fst snd] in *. destruct T as (x & d & v & Es & Cx & Pa & D & Lv & ->).
  unfold parse_prefix.
  assert (C : contains slash s = true).
  { rewrite Es. rewrite contains_app. cbn [contains]. change (Ascii.eqb "/" slash) with true. rewrite orb_true_l, orb_true_r. reflexivity. }
  assert (P := parse_cidr parseAddr PO s C). destruct (parseCIDR parseAddr s) as [[ip n]|].
  - destruct P as (x' & d' & a' & v' & Es' & Cx' & Pa' & D' & L' & _ & ->). rewrite Es in Es'.
    destruct (app_slash_inj _ _ _ _ Es' Cx Cx') as [<- <-]. rewrite Pa in Pa'. injection Pa' as <-.
    destruct D as [_ D], D' as [_ D']. rewrite D in D'. injection D' as <-. cbn [c_bits c_ones c_ip]. rewrite L. cbn [Nat.mul Nat.add Nat.eqb negb].
    replace (existsb (Nat.eqb (N.to_nat v)) d64_lengths) with true; [cbn [negb]; discriminate|]. symmetry. apply existsb_exists.
    exists (N.to_nat v). split; [exact I|apply Nat.eqb_refl].
  - intros _. eapply P; eassumption.
Qed.

Lemma all_some_forall2 {A B} (f : A -> option B) l : forall m, all_some f l = Some m -> Forall2 (fun x y => f x = Some y) l m.
Proof.
  induction l as [|x l IH]; intros m E; cbn [all_some] in E; [injection E as <-; constructor|].
  destruct (f x) as [y|] eqn:F; [|discriminate E]. destruct (all_some f l) as [m'|]; [|discriminate E]. injection E as <-.
  constructor; [exact F|apply IH; reflexivity].
Qed.
Lemma all_some_none {A B} (f : A -> option B) l : all_some f l = None <-> exists x, In x l /\ f x = None.
Proof.
  induction l as [|x l IH]; cbn [all_some]; [split; [discriminate|intros (x & [] & _)]|].
  destruct (f x) as [y|] eqn:F.
  - destruct (all_some f l) as [m|]; split; try discriminate.
    + intros (z & [<-|Hz] & E); [congruence|]. assert (X : Some m = None) by (apply IH; exists z; split; assumption). discriminate X.
    + intros _. destruct IH as [IH _]. destruct (IH eq_refl) as (z & Hz & E). exists z. split; [right; exact Hz|exact E].
    + reflexivity.
  - split; [intros _; exists x; split; [left; reflexivity|exact F]|reflexivity].
Qed.

Definition effective (l : list string) : list string := match l with [] => ["64:ff9b::/96"%string] | _ => l end.

Theorem prefixes_accepted parseAddr l : parse_ok parseAddr ->
  (newDNS64 parseAddr l = None <-> exists s, In s (effective l) /\ forall n, ~ prefix_text parseAddr s n).
Proof.
  intros PO. unfold newDNS64, parseDNS64Prefixes. fold (effective l). rewrite all_some_none. split; intros (s & Hs & H); exists s; (split; [exact Hs|]).
  - intros n T. apply (parse_prefix_none parseAddr s n PO T H).
  - destruct (parse_prefix parseAddr s) as [p|] eqn:E; [|reflexivity]. destruct (parse_prefix_spec _ _ _ PO E) as (a & pl & T & _). exfalso. exact (H _ T).
Qed.

Definition is_prefix (n : bytes * nat) (p : d64prefix) : Prop :=
  bytes_ok (fst n) /\ length (fst n) = 16 /\ In (snd n) [32; 40; 48; 56; 64; 96] /\ p = D64Prefix (land_bytes (fst n) (mask_bytes (snd n) 16)) (snd n).
Lemma prefixes_nets parseAddr l ps : parse_ok parseAddr -> newDNS64 parseAddr l = Some ps ->
  exists nets, Forall2 (prefix_text parseAddr) (effective l) nets /\ Forall2 is_prefix nets ps.
Proof.
  intros PO E. apply all_some_forall2 in E. fold (effective l) in E. induction E as [|s p ls ps' H E IH]; [exists []; split; constructor|].
  destruct IH as (nets & I1 & I2). destruct (parse_prefix_spec _ _ _ PO H) as (a & pl & T & B & Ep).
  exists ((a, pl) :: nets). split; [constructor; assumption|]. constructor; [|exact I2].
  destruct T as (_ & L & I). cbn [fst snd] in *. repeat split; assumption.
Qed.

(** ** Records *)
Lemma to4_octets ip v : to4 ip = Some v <-> v4_octets ip v.
Proof.
  unfold to4, v4_octets. split.
  - destruct (Nat.eqb_spec (length ip) 4) as [L|]; [intros E; injection E as <-; split; [exact L|left; reflexivity]|].
    destruct (Nat.eqb_spec (length ip) 16) as [L|]; [|discriminate]. destruct (list_eq_dec N.eq_dec (firstn 12 ip) v4prefix) as [F|]; [|discriminate].
    intros E. assert (Ev : v = skipn 12 ip) by congruence. rewrite Ev. split; [rewrite skipn_length, L; reflexivity|]. right. rewrite <- (firstn_skipn 12 ip) at 1. rewrite F. reflexivity.
  - intros [L [->| ->]]; [rewrite L; reflexivity|]. rewrite app_length, L. cbn [length Nat.add Nat.eqb firstn app].
    destruct (list_eq_dec N.eq_dec _ v4prefix) as [_|N]; [reflexivity|exfalso; apply N; reflexivity].
Qed.
Lemma has_v4_dec r : {has_v4 r} + {~ has_v4 r}.
Proof.
  destruct (rr_data r) eqn:D; try (right; intros (i & v & E & _); rewrite D in E; discriminate E).
  destruct (to4 ip) as [v|] eqn:T; [left; exists ip, v; split; [exact D|apply to4_octets, T]|right].
  intros (i & v & E & O). rewrite D in E. injection E as <-. apply to4_octets in O. congruence.
Qed.

Lemma synth_picked nets ps x : Forall2 is_prefix nets ps -> forall l,
  exists recs, picked has_v4 l recs /\ Forall2 (fun rn y => made_from x (fst rn) (snd rn) y) (list_prod recs nets) (flat_map (synth_record ps x) l).
Proof.
  intros HP l. induction l as [|r l IH]; [exists []; split; constructor|]. destruct IH as (recs & P & F).
  cbn [flat_map]. destruct (has_v4_dec r) as [H|H].
  - exists (r :: recs). split; [apply picked_yes; assumption|]. cbn [list_prod]. apply Forall2_app; [|exact F].
    destruct H as (ip & v & D & O). unfold synth_record. rewrite D. assert (T := O). apply to4_octets in T. rewrite T. clear F P.
    induction HP as [|n p nets ps Hn HP IH]; [constructor|]. cbn [map]. constructor; [|exact IH]. cbn [fst snd].
    destruct Hn as (B & L & I & ->). exists ip, v, (synthesizeIPv6 (D64Prefix (land_bytes (fst n) (mask_bytes (snd n) 16)) (snd n)) v).
    split; [exact D|]. split; [exact O|]. split; [apply synth_embedded; try assumption; apply O|]. repeat split; reflexivity.
  - exists recs. split; [apply picked_no; assumption|]. replace (synth_record ps x r) with (@nil rr); [exact F|].
    unfold synth_record. destruct (rr_data r) eqn:D; try reflexivity. destruct (to4 ip) as [v|] eqn:T; [|reflexivity].
    exfalso. apply H. exists ip, v. split; [exact D|apply to4_octets, T].
Qed.
Lemma cnames_picked l : picked alias l (filter is_cname l).
Proof.
  induction l as [|r l IH]; [constructor|]. cbn [filter]. unfold is_cname at 1. destruct (rr_data r) eqn:D;
    try (apply picked_no; [intros (t & E); rewrite D in E; discriminate E|exact IH]).
  apply picked_yes; [exists target; exact D|exact IH].
Qed.
Lemma picked_in {A} (P : A -> Prop) l m : picked P l m -> forall x, In x m <-> In x l /\ P x.
Proof.
  induction 1 as [|x l m H _ IH|x l m H _ IH]; intros y; cbn [In]; [tauto| |]; rewrite IH; split.
  - intros [->|[Hy Py]]; [split; [left; reflexivity|exact H]|split; [right; exact Hy|exact Py]].
  - intros [[->|Hy] Py]; [left; reflexivity|right; split; assumption].
  - intros [Hy Py]. split; [right; exact Hy|exact Py].
  - intros [[->|Hy] Py]; [contradiction|split; assumption].
Qed.

Lemma nets_not_nil parseAddr l nets : Forall2 (prefix_text parseAddr) (effective l) nets -> nets <> [].
Proof. intros H ->. inversion H as [E|]. destruct l; discriminate E. Qed.

Lemma synth_nil nets ps x b : Forall2 is_prefix nets ps -> nets <> [] ->
  (synthesizeAAAA ps b x = [] <-> ~ exists r, In r (m_answer b) /\ has_v4 r).
Proof.
  intros HP NN. unfold synthesizeAAAA. destruct (synth_picked nets ps x HP (m_answer b)) as (recs & P & F).
  destruct (flat_map (synth_record ps x) (m_answer b)) as [|y ys] eqn:E.
  - split; [intros _|reflexivity]. intros (r & Hr & V). assert (I : In r recs) by (apply (picked_in _ _ _ P); split; assumption).
    destruct recs as [|r0 recs]; [destruct I|]. destruct nets as [|n nets]; [contradiction|]. cbn [list_prod map app] in F. inversion F.
  - split; [intros X; exfalso; destruct (filter is_cname (m_answer b)); discriminate X|]. intros X. exfalso. apply X.
    destruct recs as [|r0 recs]; [inversion F|]. exists r0. apply (picked_in _ _ _ P). left. reflexivity.
Qed.

(** ** The resolver *)
Lemma a_query_spec q x l : m_question q = x :: l -> asks_a q (a_query q).
Proof. intros E. unfold a_query. rewrite E. constructor; [exists x, l; split; [exact E|reflexivity]|destruct q; reflexivity]. Qed.
Lemma asks_a_unique q q1 q2 : asks_a q q1 -> asks_a q q2 -> q1 = q2.
Proof.
  intros [(x & l & E & E1) R1] [(x' & l' & E' & E2) R2]. rewrite E in E'. injection E' as <- <-. rewrite <- R2 in R1. rewrite <- E2 in E1.
  destruct q1, q2. unfold set_question in R1. cbn in R1, E1. injection R1. intros. subst. reflexivity.
Qed.

Theorem synthesizes parseAddr texts ps up q x q' a b : parse_ok parseAddr -> newDNS64 parseAddr texts = Some ps ->
  wants q x -> asks_a q q' -> needs up q q' a b ->
  exists r nets cnames recs made,
    dns64_resolve ps up q = Some ([q; q'], Ans r) /\
    Forall2 (prefix_text parseAddr) (effective texts) nets /\
    picked alias (m_answer b) cnames /\ picked has_v4 (m_answer b) recs /\
    m_answer r = cnames ++ made /\ Forall2 (fun rn y => made_from x (fst rn) (snd rn) y) (list_prod recs nets) made /\
    m_id r = m_id q /\ m_response r = true /\ m_rcode r = 0%N /\ m_question r = [x] /\ m_ra r = m_ra a /\ m_ns r = m_ns b /\ m_extra r = m_extra b /\
    m_aa r = false /\ m_ad r = false /\ m_tc r = false.
Proof.
  intros PO N (l & Q & Ty & Do) A (U & Ra & NA & U' & Rb & V).
  destruct (prefixes_nets _ _ _ PO N) as (nets & T & HP).
  rewrite (asks_a_unique _ _ _ A (a_query_spec q x l Q)) in *.
  destruct (synth_picked nets ps x HP (m_answer b)) as (recs & P & F).
  unfold dns64_resolve. rewrite Q, Ty. cbn [N.eqb Pos.eqb TypeAAAA negb].
  replace (match is_edns0 q with Some o => opt_do o | None => false end) with false by (destruct (is_edns0 q); congruence).
  rewrite U, Ra. cbn [N.eqb RcodeSuccess negb].
  replace (hasAAAARecords a) with false.
  2: { symmetry. unfold hasAAAARecords. apply not_true_is_false. intros X. apply existsb_exists in X. destruct X as (r & Hr & X). apply N.eqb_eq in X. exact (NA r Hr X). }
  rewrite U', Rb. cbn [N.eqb RcodeSuccess negb].
  assert (NE : synthesizeAAAA ps b x <> []) by (rewrite (synth_nil nets ps x b HP (nets_not_nil _ _ _ T)); intros X; exact (X V)).
  assert (E : synthesizeAAAA ps b x = filter is_cname (m_answer b) ++ flat_map (synth_record ps x) (m_answer b)).
  { unfold synthesizeAAAA in *. destruct (flat_map (synth_record ps x) (m_answer b)); [contradiction|reflexivity]. }
  destruct (synthesizeAAAA ps b x) as [|y ys]; [contradiction|].
  eexists. exists nets, (filter is_cname (m_answer b)), recs, (flat_map (synth_record ps x) (m_answer b)).
  split; [reflexivity|]. split; [exact T|]. split; [apply cnames_picked|]. split; [exact P|]. cbn. split; [exact E|]. split; [exact F|].
  rewrite Q. repeat split; reflexivity.
Qed.

Theorem unchanged parseAddr texts ps up q : parse_ok parseAddr -> newDNS64 parseAddr texts = Some ps -> m_question q <> [] ->
  (~ exists x q' a b, wants q x /\ asks_a q q' /\ needs up q q' a b) ->
  exists qs, dns64_resolve ps up q = Some (qs, up q) /\
    (qs = [q] \/ exists x q' a, wants q x /\ asks_a q q' /\ qs = [q; q'] /\ up q = Ans a /\ m_rcode a = 0%N /\ forall r, In r (m_answer a) -> rr_type r <> 28%N).
Proof.
  intros PO N NQ NO. unfold dns64_resolve. destruct (m_question q) as [|x l] eqn:Q; [contradiction|].
  destruct (N.eqb_spec (q_type x) TypeAAAA) as [Ty|]; cbn [negb]; [|exists [q]; split; [reflexivity|left; reflexivity]].
  destruct (match is_edns0 q with Some o => opt_do o | None => false end) eqn:Do; [exists [q]; split; [reflexivity|left; reflexivity]|].
  assert (W : wants q x) by (exists l; split; [exact Q|]; split; [exact Ty|]; destruct (is_edns0 q); [exact Do|exact I]).
  destruct (up q) as [a| |e] eqn:U; [|exists [q]; split; [reflexivity|left; reflexivity]|exists [q]; split; [reflexivity|left; reflexivity]].
  destruct (N.eqb_spec (m_rcode a) RcodeSuccess) as [Ra|]; cbn [negb]; [|exists [q]; split; [reflexivity|left; reflexivity]].
  destruct (hasAAAARecords a) eqn:NA; [exists [q]; split; [reflexivity|left; reflexivity]|].
  assert (NA' : forall r, In r (m_answer a) -> rr_type r <> 28%N).
  { intros r Hr X. assert (Y : hasAAAARecords a = true) by (apply existsb_exists; exists r; split; [exact Hr|apply N.eqb_eq; exact X]). congruence. }
  assert (R : exists x0 q' a0, wants q x0 /\ asks_a q q' /\ [q; a_query q] = [q; q'] /\ Ans a = Ans a0 /\ m_rcode a0 = 0%N /\ forall r, In r (m_answer a0) -> rr_type r <> 28%N).
  { exists x, (a_query q), a. repeat (split; [first [assumption|reflexivity|apply (a_query_spec q x l Q)]|]). exact NA'. }
  destruct (up (a_query q)) as [b| |e] eqn:U'; [|exists [q; a_query q]; split; [reflexivity|right; exact R]|exists [q; a_query q]; split; [reflexivity|right; exact R]].
  destruct (N.eqb_spec (m_rcode b) RcodeSuccess) as [Rb|]; cbn [negb]; [|exists [q; a_query q]; split; [reflexivity|right; exact R]].
  destruct (prefixes_nets _ _ _ PO N) as (nets & T & HP).
  assert (E : synthesizeAAAA ps b x = []).
  { apply (synth_nil nets ps x b HP (nets_not_nil _ _ _ T)). intros V. apply NO. exists x, (a_query q), a, b. split; [exact W|].
    split; [apply (a_query_spec q x l Q)|]. repeat (split; [assumption|]). exact V. }
  rewrite E. exists [q; a_query q]. split; [reflexivity|right; exact R].
Qed.

(** ** Examples *)
Definition d64_parse (s : string) : option bytes :=
  if String.eqb s "64:ff9b::" then Some [0;100;255;155;0;0;0;0;0;0;0;0;0;0;0;0]%N
  else if String.eqb s "2001:db8:122:344::" then Some [32;1;13;184;1;34;3;68;0;0;0;0;0;0;0;0]%N else None.
Lemma d64_parse_ok : parse_ok d64_parse.
Proof.
  intros s a. unfold d64_parse. destruct (String.eqb_spec s "64:ff9b::") as [->|_]; [|destruct (String.eqb_spec s "2001:db8:122:344::") as [->|_]; [|discriminate]];
    intros E; injection E as <-; (split; [split; [repeat (constructor; [reflexivity|]); constructor|right; reflexivity]|split; [discriminate|reflexivity]]).
Qed.
Definition d64_q : msg := Msg 9 false 0 false false true false false false 0 [Q "w.a." 28 1] [] [] [].
Definition d64_empty : msg := Msg 9 true 0 false false true true false false 0 [Q "w.a." 28 1] [] [] [].
Definition d64_v4 : msg := Msg 9 true 0 false false true true false false 0 [Q "w.a." 1 1]
  [RR "w.a." 5 1 300 (DCNAME "b."); RR "b." 1 1 60 (DA [192;0;2;33]%N)] [] [].
Definition d64_up (m : msg) : result := match m_question m with [x] => if N.eqb (q_type x) 1 then Ans d64_v4 else Ans d64_empty | _ => Drop end.
Lemma d64_demo : exists ps, newDNS64 d64_parse ["2001:db8:122:344::/56"; "64:ff9b::/96"]%string = Some ps /\
  option_map (fun x => match snd x with Ans r => m_answer r | _ => [] end) (dns64_resolve ps d64_up d64_q) =
  Some [RR "w.a." 5 1 300 (DCNAME "b."); RR "w.a." 28 1 60 (DAAAA [32;1;13;184;1;34;3;192;0;0;2;33;0;0;0;0]%N);
        RR "w.a." 28 1 60 (DAAAA [0;100;255;155;0;0;0;0;0;0;0;0;192;0;2;33]%N)].
Proof. eexists. split; [vm_compute; reflexivity|vm_compute; reflexivity]. Qed.
Lemma d64_hyps : wants d64_q (Q "w.a." 28 1) /\ asks_a d64_q (a_query d64_q) /\ needs d64_up d64_q (a_query d64_q) d64_empty d64_v4.
Proof.
  split; [exists []; repeat split|]. split; [apply (a_query_spec _ (Q "w.a." 28 1) []); reflexivity|].
  split; [reflexivity|]. split; [reflexivity|]. split; [intros r []|]. split; [reflexivity|]. split; [reflexivity|].
  exists (RR "b." 1 1 60 (DA [192;0;2;33]%N)). split; [right; left; reflexivity|]. exists [192;0;2;33]%N, [192;0;2;33]%N. split; [reflexivity|].
  split; [reflexivity|left; reflexivity].
Qed.
(** The owner is the name asked for even when the A record is reached through an alias. *)
Lemma owner_refuted : exists ps up q r x y, newDNS64 d64_parse [] = Some ps /\ dns64_resolve ps up q = Some ([q; a_query q], Ans r) /\
  m_answer r = [x; y] /\ rr_data x = DCNAME "b." /\ rr_name y = "w.a."%string /\ rr_type y = 28%N /\
  (forall b z, up (a_query q) = Ans b -> In z (m_answer b) -> rr_type z = 1%N -> rr_name z = "b."%string).
Proof.
  eexists. exists d64_up, d64_q. eexists. eexists. eexists. split; [vm_compute; reflexivity|]. split; [vm_compute; reflexivity|].
  split; [reflexivity|]. split; [reflexivity|]. split; [reflexivity|]. split; [reflexivity|].
  intros b z E H T. assert (b = d64_v4) by (vm_compute in E; injection E as <-; reflexivity). subst b.
  destruct H as [<-|[<-|[]]]; [discriminate T|reflexivity].
Qed.
