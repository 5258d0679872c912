(** Proofs about counters: listeners *)
From Coq Require Import Permutation.
From Verif Require Import Base Bytes Dns Net Cidr_model Modifiers_model Lists_model Metrics_model Metrics_spec.
From Verif Require Import Listener_model.
Local Open Scope string_scope.
Local Open Scope bool_scope.
Local Open Scope nat_scope.

Lemma filter_perm {A} (f : A -> bool) l l' : Permutation l l' -> Permutation (filter f l) (filter f l').
Proof.
  induction 1; cbn; auto.
  - destruct (f x); auto.
  - destruct (f x), (f y); auto. apply perm_swap.
  - etransitivity; eauto.
Qed.
Lemma filter_len_perm {A} (f : A -> bool) l l' : Permutation l l' -> length (filter f l) = length (filter f l').
Proof. intros P. apply Permutation_length, filter_perm, P. Qed.
Lemma flat_count {A B} (g : B -> bool) (bumps : A -> list B) (f : A -> bool) :
  (forall c, length (filter g (bumps c)) = one (f c)) -> forall l, length (filter g (flat_map bumps l)) = number f l.
Proof.
  intros H l. unfold number. induction l as [|c l IH]; [reflexivity|]. cbn [flat_map filter].
  rewrite filter_app, app_length, H, IH. destruct (f c); reflexivity.
Qed.
Lemma shows_intro {A} (bumps : A -> list bump) b f : (forall c, times b (bumps c) = one (f c)) -> shows bumps b f.
Proof. intros H l log P. unfold times in *. rewrite (filter_len_perm _ _ _ P). apply flat_count, H. Qed.
Lemma shows_named_intro {A} (bumps : A -> list bump) n f : (forall c, named n (bumps c) = one (f c)) -> shows_named bumps n f.
Proof. intros H l log P. unfold named in *. rewrite (filter_len_perm _ _ _ P). apply flat_count, H. Qed.
Lemma times_app b l l' : times b (l ++ l') = times b l + times b l'.
Proof. unfold times. rewrite filter_app, app_length. reflexivity. Qed.
Lemma times_cons b x l : times b (x :: l) = one (bump_eqb b x) + times b l.
Proof. unfold times. cbn [filter]. destruct (bump_eqb b x); reflexivity. Qed.
Lemma times_nil b : times b [] = 0.
Proof. reflexivity. Qed.
Lemma number_ext {A} (f g : A -> bool) l : (forall x, f x = g x) -> number f l = number g l.
Proof. intros H. unfold number. induction l as [|x l IH]; [reflexivity|]. cbn. rewrite H. destruct (g x); cbn; congruence. Qed.
Lemma number_split {A} (f g h : A -> bool) l : (forall x, one (f x) = one (g x) + one (h x)) -> number f l = number g l + number h l.
Proof.
  intros H. unfold number. induction l as [|x l IH]; [reflexivity|]. cbn. specialize (H x).
  destruct (f x), (g x), (h x); cbn in *; lia.
Qed.
Lemma eqb_flip s t : String.eqb s t = String.eqb t s.
Proof. apply String.eqb_sym. Qed.

Lemma pad_rcode base optlen q a b : padAnswer base optlen q a = Some b -> m_rcode b = m_rcode a.
Proof.
  unfold padAnswer. destruct (is_edns0 q) as [o|]; [|intros [= <-]; reflexivity].
  set (a' := match is_edns0 a with None => _ | Some _ => a end). assert (S : m_rcode a' = m_rcode a) by (subst a'; destruct (is_edns0 a); reflexivity). clearbody a'.
  destruct (prepare_padding _) as [opts|]; [|discriminate].
  match goal with |- (if ?c then _ else _) = _ -> _ => destruct c | _ => idtac end; try discriminate; intros [= <-]; exact S.
Qed.


Lemma rcode_set m q n : m_rcode (set_rcode m q n) = n.
Proof. reflexivity. Qed.

(** ** DNS listeners *)
Section Listen.
Variable base : msg -> N.
Variable optlen : edns0 -> N.
Variable truncate : N -> msg -> msg.
Variable rCode : N -> string.
Variable id protocol : string.
Variable allowedNet : list ipnet.
Definition l_bumps (c : dnscall) := listen_bumps (dc_resolve c) base optlen truncate rCode id protocol allowedNet (dc_src c) (dc_tls c) (dc_req c).
Definition l_run (c : dnscall) := listenHandler (dc_resolve c) base optlen truncate id protocol allowedNet (dc_src c) (dc_tls c) (dc_req c).

Ltac cases := intros [resolve src tls req]; unfold l_bumps, l_run, listen_bumps, listenHandler; cbn [dc_resolve dc_src dc_tls dc_req];
  destruct (m_question req) as [|x l]; cbn [none negb]; [|destruct (isAllowed _ _); [destruct (resolve req _) as [a| |e] eqn:R|];
    try (match goal with |- context [match (if ?c then _ else _) with None => _ | Some _ => _ end] => destruct (if c then _ else _) eqn:? end)];
  unfold called, failed, closed, written, crashed; cbn [fst snd existsb app]; try match goal with H : _ = ?r |- _ => match type of r with result => rewrite ?H end end; try reflexivity;
  unfold times, named; cbn [filter bump_eqb int err response fst snd String.eqb Ascii.eqb Bool.eqb andb orb length one]; try reflexivity.

Lemma l_query : shows l_bumps (int "query") (fun c => negb (none (m_question (dc_req c)))).
Proof. apply shows_intro. cases. Qed.
Lemma l_noquestion : shows l_bumps (err "noquestion") (fun c => none (m_question (dc_req c))).
Proof. apply shows_intro. cases. Qed.
Lemma l_acl : shows l_bumps (err "acl") (fun c => negb (none (m_question (dc_req c))) && negb (called (l_run c))).
Proof. apply shows_intro. cases. Qed.
Lemma l_resolve : shows l_bumps (err "resolve") (fun c => failed (dc_resolve c) (l_run c)).
Proof. apply shows_intro. cases. Qed.
Lemma l_drop : shows l_bumps (int "drop") (fun c => closed (l_run c)).
Proof. apply shows_intro. cases. Qed.
Lemma l_response k : shows l_bumps ("response", k) (fun c => written (fun m => String.eqb k (rCode (m_rcode m))) (l_run c)).
Proof. apply shows_intro. cases; destruct (String.eqb k _); reflexivity. Qed.
Lemma l_sum calls log : Permutation log (flat_map l_bumps calls) ->
  named "query" log = named "drop" log + named "response" log + number (fun c => crashed (l_run c)) calls.
Proof.
  intros P.
  rewrite (shows_named_intro l_bumps "query" (fun c => negb (none (m_question (dc_req c)))) ltac:(cases) calls log P).
  rewrite (shows_named_intro l_bumps "drop" (fun c => closed (l_run c)) ltac:(cases) calls log P).
  rewrite (shows_named_intro l_bumps "response" (fun c => written (fun m => true) (l_run c)) ltac:(cases) calls log P).
  rewrite (number_split _ (fun c => closed (l_run c) || written (fun _ => true) (l_run c)) (fun c => crashed (l_run c))).
  - f_equal. apply number_split. intros c. unfold closed, written. destruct (snd (l_run c)); reflexivity.
  - cases.
Qed.
End Listen.

(** ** DoH *)
Section DoH.
Variable base : msg -> N.
Variable optlen : edns0 -> N.
Variable unpack : bytes -> option msg.
Variable pack : msg -> option bytes.
Variable base64dec : string -> option bytes.
Variable splitHost : string -> string.
Variable parseIP : string -> bytes.
Variable rCode : N -> string.
Variable o : dohopt.
Definition h_bumps (c : dohcall) := doh_bumps (hc_resolve c) base optlen unpack pack base64dec splitHost parseIP rCode o (hc_req c).
Definition h_run (c : dohcall) := dohHandler (hc_resolve c) base optlen unpack pack base64dec splitHost parseIP o (hc_req c).
Definition h_msg (c : dohcall) := doh_message base64dec (hc_req c).

(** A request goes to the parser, or not. *)
Definition early (c : dohcall) : list bump * (list event * lout) :=
  let r := hc_req c in
  if String.eqb (h_method r) "GET" then ([int "get"], ([], Status 400))
  else if String.eqb (h_method r) "POST" then
    if Nat.ltb maxDoHRequestSize (length (h_body r)) then ([int "post"; err "toolarge"], ([], Status 413)) else ([int "post"], ([], Status 400))
  else ([err "httpmethod"], ([], Status 405)).
Lemma h_split c :
  match h_msg c with
  | None => h_bumps c = fst (early c) /\ h_run c = snd (early c)
  | Some b => h_bumps c = int (if String.eqb (h_method (hc_req c)) "GET" then "get" else "post") :: parse_bumps (hc_resolve c) base optlen unpack pack splitHost parseIP rCode o b (hc_req c)
              /\ h_run c = parseAndRespond (hc_resolve c) base optlen unpack pack splitHost parseIP o b (hc_req c)
              /\ (h_method (hc_req c) = "GET" \/ h_method (hc_req c) = "POST")
  end.
Proof.
  unfold h_msg, doh_message, h_bumps, h_run, doh_bumps, dohHandler, getHandler, postHandler, read_max, early.
  destruct (String.eqb_spec (h_method (hc_req c)) "GET") as [G|G].
  - destruct (h_dns (hc_req c)) as [|s l]; [split; reflexivity|]. destruct (base64dec s); auto.
  - destruct (String.eqb_spec (h_method (hc_req c)) "POST") as [G'|G']; [|split; reflexivity].
    change (N.to_nat 65535) with maxDoHRequestSize. generalize maxDoHRequestSize. intros m.
    destruct (Nat.leb_spec (length (h_body (hc_req c))) m), (Nat.ltb_spec m (length (h_body (hc_req c)))); try lia; cbn [andb]; [|split; reflexivity].
    destruct (h_broken (hc_req c)); cbn [negb]; auto.
Qed.
Ltac open := unfold times, named; cbn [filter bump_eqb int err response fst snd app String.eqb Ascii.eqb Bool.eqb andb orb length one].
Ltac cases := let c := fresh "c" in intros c; let S := fresh in pose proof (h_split c) as S; let M := fresh in destruct (h_msg c) as [b|] eqn:M;
  [ let G := fresh in let E1 := fresh in let E2 := fresh in destruct S as (E1 & E2 & G); rewrite ?E1, ?E2; clear E1 E2; unfold parse_bumps, parseAndRespond, asks, garbled, empty;
    destruct (unpack b) as [q|]; [destruct (m_question q) as [|x l]; cbn [none negb];
      [|destruct (_ && negb (isReplayableOpcode _));
        [|destruct (is_nil _); [|destruct (isAllowed _ _); [destruct (hc_resolve c q _) as [a| |e] eqn:R|];
          try (destruct (padAnswer base optlen q _) as [a'|] eqn:P; [destruct (pack a')|])]]]|]
  | let E1 := fresh in let E2 := fresh in destruct S as (E1 & E2); rewrite ?E1, ?E2; clear E1 E2; unfold early; destruct (String.eqb_spec (h_method (hc_req c)) "GET"); [|destruct (String.eqb_spec (h_method (hc_req c)) "POST"); [destruct (Nat.ltb _ _)|]]];
  unfold called, failed, closed, written, crashed, status, body, reply_code; cbn [fst snd existsb find app N.eqb Pos.eqb]; try match goal with H : _ = ?r |- _ => match type of r with result => rewrite ?H end end; try reflexivity;
  try (destruct (String.eqb_spec (h_method (hc_req c)) "GET")); open; try reflexivity.
Lemma h_httpmethod : shows h_bumps (err "httpmethod") (fun c => status 405 (h_run c)).
Proof. apply shows_intro. cases. Qed.
Lemma h_toolarge : shows h_bumps (err "toolarge") (fun c => status 413 (h_run c)).
Proof. apply shows_intro. cases. Qed.
Lemma h_tooearly : shows h_bumps (err "tooearly") (fun c => status 425 (h_run c)).
Proof. apply shows_intro. cases. Qed.
Lemma h_pack : shows h_bumps (err "pack") (fun c => status 500 (h_run c)).
Proof. apply shows_intro. cases. Qed.
Lemma h_drop : shows h_bumps (int "drop") (fun c => status 403 (h_run c)).
Proof. apply shows_intro. cases. Qed.
Lemma h_get : shows h_bumps (int "get") (fun c => String.eqb (h_method (hc_req c)) "GET").
Proof. apply shows_intro. cases; repeat match goal with H : h_method _ = _ |- _ => rewrite H end; try reflexivity; try match goal with G : _ \/ _ |- _ => destruct G as [G|G]; [contradiction|rewrite G; reflexivity] end. all: try match goal with |- context [h_method (hc_req ?c)] => destruct (String.eqb_spec (h_method (hc_req c)) "GET"); [contradiction|reflexivity] end. Qed.
Lemma h_post : shows h_bumps (int "post") (fun c => String.eqb (h_method (hc_req c)) "POST").
Proof. apply shows_intro. cases; repeat match goal with H : h_method _ = _ |- _ => rewrite H end; try reflexivity; try match goal with G : _ \/ _ |- _ => destruct G as [G|G]; [contradiction|rewrite G; reflexivity] end. all: try match goal with |- context [h_method (hc_req ?c)] => destruct (String.eqb_spec (h_method (hc_req c)) "POST"); [contradiction|reflexivity] end. Qed.
Lemma h_query : shows h_bumps (int "query") (fun c => match h_msg c with Some _ => true | None => false end).
Proof. apply shows_intro. cases; match goal with M : h_msg _ = _ |- _ => rewrite M end; reflexivity. Qed.
Lemma h_unpack : shows h_bumps (err "unpack") (fun c => garbled unpack (h_msg c)).
Proof. apply shows_intro. cases. Qed.
Lemma h_noquestion : shows h_bumps (err "noquestion") (fun c => empty unpack (h_msg c)).
Proof. apply shows_intro. cases. Qed.
Lemma h_remoteaddr : shows h_bumps (err "remoteaddr") (fun c => asks unpack (h_msg c) && status 400 (h_run c)).
Proof. apply shows_intro. cases. Qed.
Lemma h_response k : shows h_bumps ("response", k) (fun c => (body (h_run c) || status 500 (h_run c)) && String.eqb k (rCode (reply_code (hc_resolve c) (h_run c)))).
Proof.
  apply shows_intro. cases; try match goal with P : padAnswer _ _ _ _ = _ |- _ => rewrite ?(pad_rcode _ _ _ _ _ P) end; rewrite ?rcode_set; try reflexivity;
    match goal with |- context [String.eqb ?a ?b] => destruct (String.eqb a b) end; reflexivity.
Qed.
(** What is counted as a query is counted once more. *)
Definition h_ends (log : list bump) : nat :=
  times (err "unpack") log + times (err "noquestion") log + times (err "tooearly") log + times (err "remoteaddr") log + times (int "drop") log + named "response" log.
Lemma h_responses : shows_named h_bumps "response" (fun c => body (h_run c) || status 500 (h_run c)).
Proof. apply shows_named_intro. cases. Qed.
Lemma h_sum calls log : Permutation log (flat_map h_bumps calls) ->
  times (int "query") log = h_ends log + number (fun c => crashed (h_run c)) calls.
Proof.
  intros P. unfold h_ends.
  rewrite (h_query _ _ P), (h_unpack _ _ P), (h_noquestion _ _ P), (h_tooearly _ _ P), (h_remoteaddr _ _ P), (h_drop _ _ P).
  rewrite (h_responses _ _ P). clear P log.
  induction calls as [|c calls IH]; [reflexivity|]. unfold number in *. cbn [filter].
  assert (E : one (match h_msg c with Some _ => true | None => false end) =
     one (garbled unpack (h_msg c)) + one (empty unpack (h_msg c)) + one (status 425 (h_run c)) + one (asks unpack (h_msg c) && status 400 (h_run c)) +
     one (status 403 (h_run c)) + one (body (h_run c) || status 500 (h_run c)) + one (crashed (h_run c))) by (revert c; cases; match goal with M : h_msg _ = _ |- _ => rewrite M end; reflexivity).
  repeat match goal with |- context [if ?b then _ else _] => destruct b end; cbn [one length] in *; lia.
Qed.
(** Failures of the resolver and refused clients are not counted as errors. *)
Lemma h_silent : shows h_bumps (err "resolve") (fun _ => false) /\ shows h_bumps (err "acl") (fun _ => false).
Proof. split; apply shows_intro; cases. Qed.
End DoH.

(** ** DoQ *)
Section DoQ.
Variable unpack : bytes -> option msg.
Variable pack : msg -> option bytes.
Variable rCode : N -> string.
Definition q_bumps (c : doqcall) := stream_bumps (qc_resolve c) unpack pack rCode (qc_client c) (qc_hs c) (qc_sent c) (qc_data c).
Definition q_run (c : doqcall) := handleStream (qc_resolve c) unpack pack (qc_client c) (qc_hs c) (qc_data c).
Definition q_msg (c : doqcall) := read_frame (qc_data c).
Ltac cases := intros [resolve ci hs sent data]; unfold q_bumps, q_run, q_msg, stream_bumps, handleStream, asks, garbled, empty; cbn [qc_resolve qc_client qc_hs qc_sent qc_data];
  destruct (read_frame data) as [b|]; [destruct (unpack b) as [q|]; [destruct (m_question q) as [|x l]; cbn [none negb];
    [|destruct (has_keepalive q); [|destruct (isReplayableOpcode (m_opcode q)); [|destruct hs]; cbn [negb andb];
      try (destruct (resolve q ci) as [a| |e] eqn:?; try (destruct (pack _); [destruct sent|]))]]|]|];
  unfold called, failed, closed, written, crashed, status, body, reply_code; cbn [fst snd existsb find app negb andb orb];
  repeat match goal with H : resolve _ _ = _ |- _ => rewrite H; clear H end; try reflexivity;
  unfold times, named; cbn [filter bump_eqb int err response fst snd app String.eqb Ascii.eqb Bool.eqb andb orb length one]; rewrite ?rcode_set; try reflexivity;
  try (match goal with |- context [String.eqb ?a ?b] => destruct (String.eqb a b) end; reflexivity).
Lemma q_stream : shows q_bumps (int "stream") (fun _ => true).
Proof. apply shows_intro. cases. Qed.
Lemma q_read : shows q_bumps (err "read") (fun c => match q_msg c with None => true | Some _ => false end).
Proof. apply shows_intro. cases. Qed.
Lemma q_unpack : shows q_bumps (err "unpack") (fun c => garbled unpack (q_msg c)).
Proof. apply shows_intro. cases. Qed.
Lemma q_noquestion : shows q_bumps (err "noquestion") (fun c => empty unpack (q_msg c)).
Proof. apply shows_intro. cases. Qed.
Lemma q_query : shows q_bumps (int "query") (fun c => asks unpack (q_msg c)).
Proof. apply shows_intro. cases. Qed.
(** A query that no resolver was called for *)
Lemma q_early c : times (err "keepalive") (q_bumps c) + times (err "tooearly") (q_bumps c) = one (asks unpack (q_msg c) && negb (called (q_run c))).
Proof. revert c. cases. Qed.
Lemma q_refusals calls log : Permutation log (flat_map q_bumps calls) ->
  times (err "keepalive") log + times (err "tooearly") log = number (fun c => asks unpack (q_msg c) && negb (called (q_run c))) calls.
Proof.
  intros P. unfold times. rewrite !(filter_len_perm _ _ _ P). clear P log. unfold number. induction calls as [|c calls IH]; [reflexivity|].
  cbn [flat_map filter]. rewrite !filter_app, !app_length. pose proof (q_early c) as E. unfold times in E. destruct (_ && _); cbn [one length] in *; lia.
Qed.
Lemma q_keepalive : shows q_bumps (err "keepalive") (fun c => match q_msg c with Some b => match unpack b with Some q => negb (none (m_question q)) && has_keepalive q | None => false end | None => false end).
Proof. apply shows_intro. cases. Qed.
Lemma q_encode : shows q_bumps (err "encode") (fun c => called (q_run c) && match snd (q_run c) with Silent => true | _ => false end).
Proof. apply shows_intro. cases. Qed.
Lemma q_send : shows q_bumps (err "send") (fun c => body (q_run c) && negb (qc_sent c)).
Proof. apply shows_intro. cases. Qed.
Lemma q_response k : shows q_bumps ("response", k) (fun c => body (q_run c) && String.eqb k (rCode (reply_code (qc_resolve c) (q_run c)))).
Proof. apply shows_intro. cases. Qed.
Definition q_ends (log : list bump) : nat := times (err "keepalive") log + times (err "tooearly") log + times (err "encode") log + named "response" log.
Lemma q_sum calls log : Permutation log (flat_map q_bumps calls) ->
  times (int "stream") log = times (err "read") log + times (err "unpack") log + times (err "noquestion") log + times (int "query") log /\
  times (int "query") log = q_ends log + number (fun c => crashed (q_run c)) calls.
Proof.
  intros P. unfold q_ends. rewrite (q_refusals _ _ P).
  rewrite (q_query _ _ P), (q_unpack _ _ P), (q_noquestion _ _ P), (q_read _ _ P), (q_encode _ _ P), (q_stream _ _ P).
  rewrite (shows_named_intro q_bumps "response" (fun c => body (q_run c)) ltac:(cases) calls log P). clear P log.
  split; (induction calls as [|c calls IH]; [reflexivity|]); unfold number in *; cbn [filter].
  - assert (E : one true = one (match q_msg c with None => true | Some _ => false end) + one (garbled unpack (q_msg c)) + one (empty unpack (q_msg c)) + one (asks unpack (q_msg c))) by (revert c; clear; cases).
    repeat match goal with |- context [if ?b then _ else _] => destruct b end; cbn [one length] in *; lia.
  - assert (E : one (asks unpack (q_msg c)) = one (asks unpack (q_msg c) && negb (called (q_run c))) + one (called (q_run c) && match snd (q_run c) with Silent => true | _ => false end) + one (body (q_run c)) + one (crashed (q_run c))) by (revert c; clear; cases).
    repeat match goal with |- context [if ?b then _ else _] => destruct b end; cbn [one length] in *; lia.
Qed.
(** Connections *)
Lemma q_connection resolve id nets src tls streams :
  connection_bumps resolve unpack pack rCode id nets src tls streams =
  if isAllowed nets src then int "session" :: flat_map q_bumps (map (fun '(hs, sent, data) => DoqCall resolve (Client src "" tls id) hs sent data) streams) else [int "drop"].
Proof.
  unfold connection_bumps. destruct (isAllowed nets src); [|reflexivity]. f_equal. induction streams as [|[[hs sent] data] l IH]; [reflexivity|]. cbn. rewrite IH. reflexivity.
Qed.
End DoQ.
