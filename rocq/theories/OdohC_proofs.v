(** Proofs about the ODoH client. *)
From Verif Require Import Base Base_proofs Bytes Dns Client_model Addr_model OdohC_model OdohC_spec Odoh_model Odoh_spec Odoh_proofs.
From Coq Require Import Lia ZifyBool.
Local Open Scope string_scope.

Lemma append_assoc (a b c : string) : (a ++ b) ++ c = a ++ b ++ c.
Proof. induction a; cbn; congruence. Qed.
Definition hex_ok (c : ascii) : bool :=
  match unhex (hexdig (N_of_ascii c / 16)), unhex (hexdig (N_of_ascii c mod 16)) with Some x, Some y => Ascii.eqb (ascii_of_N (16 * x + y)) c | _, _ => false end
  && negb (plain c && (Ascii.eqb c "%" || Ascii.eqb c "+")).
Lemma hex_ok_all c : hex_ok c = true.
Proof. destruct c as [[|] [|] [|] [|] [|] [|] [|] [|]]; vm_compute; reflexivity. Qed.
Lemma unescape_esc c s : QueryUnescape (esc c ++ s) = option_map (String c) (QueryUnescape s).
Proof.
  pose proof (hex_ok_all c) as H. unfold hex_ok in H. apply andb_prop in H as [H1 H2]. unfold esc.
  destruct (Ascii.eqb_spec c " ") as [->|_]; [reflexivity|]. destruct (plain c).
  - cbn [andb] in H2. apply Bool.negb_true_iff, Bool.orb_false_iff in H2 as [P Q]. cbn [append QueryUnescape]. now rewrite P, Q.
  - cbn [append QueryUnescape]. cbn [Ascii.eqb]. change (Ascii.eqb "%" "%") with true. cbv iota.
    destruct (unhex (hexdig (N_of_ascii c / 16))) as [x|]; [|discriminate]. destruct (unhex (hexdig (N_of_ascii c mod 16))) as [y|]; [|discriminate].
    apply Ascii.eqb_eq in H1. rewrite H1. now destruct (QueryUnescape s).
Qed.
Lemma unescape_escape s : QueryUnescape (QueryEscape s) = Some s.
Proof. induction s as [|c s IH]; [reflexivity|]. cbn [QueryEscape]. rewrite unescape_esc, IH. reflexivity. Qed.
Lemma contains_app c a b : contains c (a ++ b) = contains c a || contains c b.
Proof. induction a as [|d a IH]; cbn; [reflexivity|]. destruct (Ascii.eqb d c); cbn; auto. Qed.
Lemma esc_contains d c : In d ["&"; "="; ";"; "?"; "#"]%char -> contains d (esc c) = false.
Proof. intros H. cbn in H. destruct H as [<-|[<-|[<-|[<-|[<-|[]]]]]]; destruct c as [[|] [|] [|] [|] [|] [|] [|] [|]]; reflexivity. Qed.
Lemma escape_contains d s : In d ["&"; "="; ";"; "?"; "#"]%char -> contains d (QueryEscape s) = false.
Proof. intros H. induction s as [|c s IH]; [reflexivity|]. cbn [QueryEscape]. rewrite contains_app, esc_contains, IH; auto. Qed.
Lemma cut_none c s : contains c s = false -> cut c s = None.
Proof. induction s as [|d s IH]; cbn; [reflexivity|]. destruct (Ascii.eqb d c); [discriminate|]. intros H. now rewrite IH. Qed.
Lemma cut_app c a b : contains c a = false -> cut c (a ++ String c b) = Some (a, b).
Proof.
  induction a as [|d a IH]; cbn; [now rewrite Ascii.eqb_refl|]. destruct (Ascii.eqb d c); [discriminate|]. intros H. now rewrite IH.
Qed.
Definition part (p : string * string) : string := QueryEscape (fst p) ++ String "=" (QueryEscape (snd p)).
Lemma part_contains d p : In d ["&"; ";"; "?"; "#"]%char -> contains d (part p) = false.
Proof.
  intros H. unfold part. rewrite contains_app. cbn [contains]. rewrite !escape_contains by (cbn in *; tauto).
  cbn in H. destruct H as [<-|[<-|[<-|[<-|[]]]]]; reflexivity.
Qed.
Lemma pair_part p : pair (part p) = [p].
Proof.
  unfold pair. rewrite part_contains by (cbn; auto). destruct (String.eqb_spec (part p) "") as [E|_].
  - unfold part in E. destruct (QueryEscape (fst p)); discriminate.
  - unfold part. rewrite cut_app by (apply escape_contains; cbn; auto). rewrite !unescape_escape. now destruct p.
Qed.
Lemma parse_parts l : ParseQuery (join "&" (map part l)) = l.
Proof.
  unfold ParseQuery. destruct l as [|p l]; [reflexivity|]. rewrite split_join; [|discriminate|].
  - induction (p :: l) as [|q m IH]; [reflexivity|]. cbn [map flat_map]. now rewrite pair_part, IH.
  - apply Forall_map, Forall_forall. intros q _. apply part_contains. cbn; auto.
Qed.
Lemma parse_encode l : ParseQuery (Encode l) = sort l.
Proof. exact (parse_parts (sort l)). Qed.
Lemma values_insert k p l : values k (insert p l) = values k (p :: l).
Proof.
  induction l as [|q l IH]; [reflexivity|]. cbn [insert]. destruct (String.leb (fst p) (fst q)) eqn:E; [reflexivity|].
  unfold values in *. cbn [filter map]. destruct (String.eqb_spec k (fst q)) as [Eqq|Nq]; destruct (String.eqb_spec k (fst p)) as [Ep|Np]; cbn [map].
  - exfalso. rewrite <- Ep, <- Eqq in E. unfold String.leb in E. destruct (String.compare k k) eqn:C; try discriminate.
    assert (String.compare k k = Eq) by (clear; induction k as [|c k IHk]; cbn; [reflexivity|]; unfold Ascii.compare; now rewrite N.compare_refl). congruence.
  - f_equal. rewrite IH. cbn [filter]. destruct (String.eqb_spec k (fst p)); [contradiction|reflexivity].
  - rewrite IH. cbn [filter]. destruct (String.eqb_spec k (fst p)); [reflexivity|contradiction].
  - rewrite IH. cbn [filter]. destruct (String.eqb_spec k (fst p)); [contradiction|reflexivity].
Qed.
Lemma values_sort k l : values k (sort l) = values k l.
Proof.
  induction l as [|p l IH]; [reflexivity|]. change (sort (p :: l)) with (insert p (sort l)). rewrite values_insert.
  unfold values in *. cbn [filter map]. destruct (String.eqb k (fst p)); cbn [map]; congruence.
Qed.
Lemma values_app k a b : values k (a ++ b) = (values k a ++ values k b)%list.
Proof. unfold values. now rewrite filter_app, map_app. Qed.
Lemma get_values k l : Get k l = match values k l with v :: _ => v | [] => "" end.
Proof. induction l as [|[k' v] l IH]; [reflexivity|]. unfold values in *. cbn. destruct (String.eqb k k'); [reflexivity|exact IH]. Qed.

Lemma cut_some c s a b : cut c s = Some (a, b) -> s = a ++ String c b /\ contains c a = false.
Proof.
  revert a b. induction s as [|d s IH]; intros a b; [discriminate|]. cbn. destruct (Ascii.eqb_spec d c) as [->|N].
  - intros [= <- <-]. auto.
  - destruct (cut c s) as [[a' b']|]; [|discriminate]. intros [= <- <-]. destruct (IH _ _ eq_refl) as [-> H]. split; [reflexivity|]. cbn. destruct (Ascii.eqb_spec d c); [contradiction|exact H].
Qed.
Lemma cut_contains c s : cut c s = None -> contains c s = false.
Proof. induction s as [|d s IH]; cbn; [reflexivity|]. destruct (Ascii.eqb d c); [discriminate|]. destruct (cut c s) as [[? ?]|]; [discriminate|auto]. Qed.
Lemma no_fragment_ok u : contains "#" (no_fragment u) = false.
Proof. unfold no_fragment. destruct (cut "#" u) as [[a b]|] eqn:E; [apply (cut_some _ _ _ _ E)|now apply cut_contains]. Qed.
Lemma base_ok u : contains "#" (url_base u) = false /\ contains "?" (url_base u) = false.
Proof.
  unfold url_base. pose proof (no_fragment_ok u) as F. destruct (cut "?" (no_fragment u)) as [[a b]|] eqn:E.
  - apply cut_some in E as [E H]. rewrite E, contains_app in F. apply Bool.orb_false_iff in F. tauto.
  - split; [exact F|now apply cut_contains].
Qed.
Lemma join_contains c l : c <> "&"%char -> Forall (fun p => contains c p = false) l -> contains c (join "&" l) = false.
Proof.
  intros N. induction l as [|x [|y l] IH]; intros H; [reflexivity|now inversion H|]. rewrite join_cons2, contains_app. inversion H; subst.
  cbn [contains]. rewrite IH, H2 by assumption. destruct (Ascii.eqb_spec "&" c); [congruence|reflexivity].
Qed.
Lemma encode_contains c l : In c ["?"; "#"]%char -> contains c (Encode l) = false.
Proof.
  intros H. apply join_contains; [cbn in H; destruct H as [<-|[<-|[]]]; discriminate|]. apply Forall_map, Forall_forall. intros p _. apply part_contains. cbn in *. tauto.
Qed.
Lemma custom_parts n p u : let u' := customizeRequest n p u in
  url_base u' = url_base u /\ url_query u' = Encode (Add "targetpath" p (Add "targethost" n (ParseQuery (url_query u)))).
Proof.
  cbv zeta. unfold customizeRequest. set (e := Encode _). destruct (base_ok u) as [B1 B2]. set (b := url_base u) in *.
  assert (F : no_fragment (b ++ String "?" e) = b ++ String "?" e).
  { unfold no_fragment. rewrite cut_none; [reflexivity|]. rewrite contains_app, B1. cbn [contains]. unfold e. rewrite encode_contains by (cbn; auto). reflexivity. }
  unfold url_base, url_query. rewrite F, cut_app by exact B2. auto.
Qed.
Lemma custom_values n p u k : values k (ParseQuery (url_query (customizeRequest n p u))) =
  (values k (ParseQuery (url_query u)) ++ (if String.eqb k "targethost" then [n] else if String.eqb k "targetpath" then [p] else []))%list.
Proof.
  destruct (custom_parts n p u) as [_ ->]. rewrite parse_encode, values_sort. unfold Add. rewrite !values_app, <- app_assoc. f_equal.
  unfold values. cbn [filter fst]. destruct (String.eqb_spec k "targethost") as [->|]; [reflexivity|]. destruct (String.eqb k "targetpath"); reflexivity.
Qed.
Lemma custom_base n p u : url_base (customizeRequest n p u) = url_base u.
Proof. apply custom_parts. Qed.
Lemma custom_get n p u : let l := ParseQuery (url_query (customizeRequest n p u)) in let l0 := ParseQuery (url_query u) in
  (values "targethost" l0 = [] -> Get "targethost" l = n) /\ (values "targetpath" l0 = [] -> Get "targetpath" l = p).
Proof. cbv zeta. rewrite !get_values, !custom_values. cbn. split; intros ->; reflexivity. Qed.

Lemma chars_app (P : ascii -> Prop) a b : chars P a -> chars P b -> chars P (a ++ b).
Proof.
  intros A B. induction a as [|c a IH]; [exact B|]. intros [|i] d; cbn.
  - intros [= <-]. exact (A 0%nat c eq_refl).
  - apply IH. intros j e H. exact (A (S j) e H).
Qed.
Definition hex_safe (c : ascii) : bool := plain (hexdig (N_of_ascii c / 16)) && plain (hexdig (N_of_ascii c mod 16)).
Lemma hex_safe_all c : hex_safe c = true.
Proof. destruct c as [[|] [|] [|] [|] [|] [|] [|] [|]]; vm_compute; reflexivity. Qed.
Lemma plain_safe c : plain c = true -> safe c.
Proof. intros H. exists (N_of_ascii c). split; [now rewrite ascii_N_embedding|]. unfold plain in H. lia. Qed.
Lemma esc_safe c : chars safe (esc c).
Proof.
  pose proof (hex_safe_all c) as H. apply andb_prop in H as [H1 H2]. intros i d. unfold esc. destruct (Ascii.eqb c " "); [|destruct (plain c) eqn:P].
  - destruct i; cbn; [|discriminate]. intros [= <-]. exists 43%N. split; [reflexivity|lia].
  - destruct i; cbn; [|discriminate]. intros [= <-]. now apply plain_safe.
  - destruct i as [|[|[|i]]]; cbn [get]; intros E; try discriminate E; assert (E' := E); injection E' as <-.
    + exists 37%N. split; [reflexivity|lia].
    + now apply plain_safe.
    + now apply plain_safe.
Qed.
Lemma escape_safe s : chars safe (QueryEscape s).
Proof. induction s as [|c s IH]; [intros [|i] d H; discriminate|]. cbn [QueryEscape]. apply chars_app; auto using esc_safe. Qed.

Section Request.
Variable unpack : bytes -> option msg.
Variable pack : msg -> option bytes.
Variable base64 : bytes -> string.
Variable expand : option string -> option string.
Variable http : hreq -> option hresp.
Variables encrypt decrypt : bytes -> option bytes.
Lemma request config n p o q req : In req (fst (odoh_resolve unpack pack base64 expand http encrypt decrypt config (customizeRequest n p) o q)) ->
  exists b e, pack q = Some b /\ encrypt b = Some e /\
   (dc_method o = "POST" /\ (exists u, expand None = Some u /\ req = HReq "POST" (customizeRequest n p u) e) \/
    dc_method o = "GET" /\ (exists u m, expand (Some (base64 e)) = Some u /\ req = HReq m (customizeRequest n p u) [] /\ (m = "GET" \/ m = MethodGet0RTT))).
Proof.
  unfold odoh_resolve. destruct config; cbn [negb]; [|intros []]. destruct (pack q) as [b|]; [|intros []]. destruct (encrypt b) as [e|] eqn:Ee; [|intros []].
  destruct (buildRequest base64 expand o e (m_opcode q)) as [r|] eqn:B; [|intros []]. cbv zeta. cbn [fst]. intros [<-|[]]. exists b, e. split; [reflexivity|]. split; [exact Ee|].
  unfold buildRequest in B. destruct (String.eqb_spec (dc_method o) "POST") as [M|M].
  - left. split; [exact M|]. unfold buildPostRequest in B. destruct (expand None) as [u|]; [|discriminate]. injection B as <-. exists u. auto.
  - right. destruct (String.eqb_spec (dc_method o) "GET") as [M'|]; [|discriminate]. split; [exact M'|]. unfold buildGetRequest in B. destruct (expand (Some (base64 e))) as [u|]; [|discriminate].
    injection B as <-. exists u. eexists. split; [reflexivity|]. split; [reflexivity|]. cbn [hq_method]. destruct (dc_0rtt o && _ && _); auto.
Qed.
(** Through the proxy of C66 *)
Lemma proxied do_ nets remote config n p o q req u :
  In req (fst (odoh_resolve unpack pack base64 expand http encrypt decrypt config (customizeRequest n p) o q)) ->
  dc_method o = "POST" -> expand None = Some u -> values "targethost" (ParseQuery (url_query u)) = [] -> values "targetpath" (ParseQuery (url_query u)) = [] ->
  domain n -> (N.of_nat (String.length n) <= 253)%N -> safe_path p -> (N.of_nat (String.length p) <= 1024)%N ->
  exists b e, pack q = Some b /\ encrypt b = Some e /\
   ((N.of_nat (length e) <= 4096)%N ->
    let f := Fwd "https" n p "application/oblivious-dns-message" e in ODoHproxyHandler do_ nets (at_proxy remote req) = ([f], relay (do_ f))).
Proof.
  intros I M U V1 V2 D1 D2 D3 D4. destruct (request _ _ _ _ _ _ I) as (b & e & Pk & En & [[_ (u' & U' & ->)]|[M' _]]); [|congruence].
  assert (u' = u) as -> by congruence. exists b, e. split; [exact Pk|]. split; [exact En|]. intros L. cbv zeta.
  destruct (custom_get n p u) as [G1 G2]. cbv zeta in G1, G2.
  assert (A : at_proxy remote (HReq "POST" (customizeRequest n p u) e) = PReq remote "POST" "application/oblivious-dns-message" n p e false).
  { unfold at_proxy. cbn [hq_url hq_method hq_body]. cbv zeta. rewrite G1, G2 by assumption. reflexivity. }
  rewrite A. destruct (handler_ok do_ nets (PReq remote "POST" "application/oblivious-dns-message" n p e false)) as (f & S & ->).
  { red. cbn. auto 10. }
  destruct S as (S1 & S2 & S3 & S4 & rest & S5 & S6 & S7). destruct f as [f1 f2 f3 f4 f5]. cbn in *. subst f1 f2 f3 f4.
  assert (rest = []) as ->. { destruct S7 as [|S7]; [assumption|]. apply (f_equal (@length N)) in S5. rewrite app_length in S5. destruct rest; [reflexivity|cbn in S5; lia]. }
  rewrite app_nil_r in S5. subst f5. reflexivity.
Qed.
Lemma get_refused do_ nets remote config n p o q req :
  In req (fst (odoh_resolve unpack pack base64 expand http encrypt decrypt config (customizeRequest n p) o q)) -> dc_method o = "GET" ->
  ODoHproxyHandler do_ nets (at_proxy remote req) = ([], PStatus 405).
Proof.
  intros I M. destruct (request _ _ _ _ _ _ I) as (b & e & Pk & En & [[M' _]|[_ (u & m & _ & -> & [->| ->])]]); [congruence|reflexivity|reflexivity].
Qed.
End Request.
