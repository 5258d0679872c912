(** A small world for the examples of C91, and what fails there. *)
From Verif Require Import Base Bytes Dns Net Cidr_model Cidr_spec Net_spec Modifiers_spec Modifiers_model Router_model Addr_model Addr_spec
  RunNs_model XDial_model LSock_model LSock_spec Tls_spec Listener_model Listener_spec.
From Verif Require Tls_model Odoh_model.
From Verif Require Import LCfg_model LCfg_spec LCfg_proofs LCfg_proofs2 LCfg_proofs3 LCfg_proofs4.
Local Open Scope string_scope.
Local Open Scope bool_scope.

Definition X_addr (s : string) : option bytes := if String.eqb s "10.0.0.0" then Some [10;0;0;0]%N else None.
Definition X_ip (s : string) : bytes := if String.eqb s "10.1.1.1" then [10;1;1;1]%N else if String.eqb s "192.0.2.1" then [192;0;2;1]%N else [].
(** Resolvers are numbers, keys are the octets they are made of *)
Definition X_w : world N string string bytes :=
  World (fun s => if String.eqb s "r1" then Some 1%N else if String.eqb s "r2" then Some 2%N else None) X_addr (fun _ => None) X_ip
    (fun a => if String.eqb a "10.0.0.1:8853" then Some ([10;0;0;1]%N, 8853%Z) else None)
    (fun f => if String.eqb f "ca.pem" then Some ["ca"] else None) (fun c k => if String.eqb c "s.crt" && String.eqb k "s.key" then Some "server" else None)
    (fun s => if String.eqb s "0a0b" then Some [10;11]%N else None) (fun b => match b with [] => None | _ => Some b end).
Definition X_q : msg := set_question [Q "a." 1 1] empty_msg.
(** A reply of which resolver 2 has answers *)
Definition X_a (r : N) : msg := if N.eqb r 2 then set_answer [RR "a." 1 1 60 (DA [1;2;3;4]%N)] (set_reply empty_msg X_q) else set_reply empty_msg X_q.
Definition X_b : lib N bytes :=
  Lib N bytes (fun r _ _ => Ans (X_a r)) (fun _ => 30%N) (fun e => match e with PADDING d => 4 + N.of_nat (length d) | _ => 4 end)%N (fun _ m => set_answer [] m)
    (fun b => match b with [] => None | _ => Some X_q end) (fun m => Some [N.of_nat (length (m_answer m))]) (fun _ => Some [1]%N) (fun s => s)
    (fun k b => match b with x :: _ => if list_eq_dec N.eq_dec k [10;11]%N then Some b else None | [] => None end) (fun k b p => Some (99 :: p)%N) (fun _ => None).

Lemma X_sane : sane X_w X_b.
Proof.
  split.
  - intros s a. cbn. unfold X_addr. destruct (String.eqb_spec s "10.0.0.0") as [->|]; [|discriminate]. intros H. injection H as <-.
    split; [split; [repeat constructor|left; reflexivity]|]. split; [reflexivity|discriminate].
  - intros s. cbn. unfold X_ip. destruct (String.eqb s "10.1.1.1"); [right|destruct (String.eqb s "192.0.2.1"); [right|left; reflexivity]]; (split; [repeat constructor|left; reflexivity]).
  - reflexivity.
  - reflexivity.
  - intros o q. cbn. destruct o; [discriminate|]. intros H. injection H as <-. constructor.
Qed.

(** Settings for clients of 10.0.0.0/8 *)
Definition X_l (address protocol : string) (ipv : Z) (transport resolver seed mode netns proxy : string) : settings :=
  Settings address protocol ipv transport resolver "ca.pem" "s.key" "s.crt" true false ["10.0.0.0/8"] seed mode false netns "" 0 "" proxy.
Definition X_h (path remote ctype : string) (body : bytes) : httpreq := HttpReq "POST" [] ctype body false (Some (true, "dns.example")) remote [] path.

Lemma X_outside : ~ served X_w (X_l "" "tcp" 0 "" "r1" "" "" "" "") [192;0;2;1]%N.
Proof.
  intros [H|(s & a & p & [<-|[]] & (x & d & v & E & C & A & D & L & ->) & _ & HAS)]; [discriminate|].
  assert (CS : cut_slash "10.0.0.0/8" = Some (x, d)) by (apply Cidr_proofs3.cut_slash_some; split; [exact E|exact C]).
  injection CS as <- <-. injection A as <-. destruct D as [_ D]. injection D as <-. destruct HAS as [H _]. vm_compute in H. discriminate.
Qed.

Section W.
Context {R CA Cert Key : Type}.
Variable w : world R CA Cert Key.
Variable b : lib R Key.
Hypothesis S : sane w b.
(** Over UDP with an ip-version the answer goes out as it is, whatever the size *)
Lemma udp_whole id l ln src tls q r a : made w id l ln -> is l ["udp"] -> l_ipv l <> 0%Z -> src = [] \/ ip_ok src -> opt_wf q -> m_question q <> [] ->
  served w l src -> w_resolver w (l_resolver l) = Some r -> b_ask R Key b r q (Client src "" tls id) = Ans a -> no_edns0 a -> paddable a ->
  serve R CA Cert Key w b id ln (AMsg src tls q) = Ran Key ([Call q (Client src "" tls id)], Written a).
Proof.
  intros M E V O W NQ Y RR A NE PA. assert (I : is l ["tcp"; "udp"; "dot"; "dtls"]) by (apply is1 in E; unfold is; rewrite E; cbn; tauto).
  destruct (msg_ok w b S id l ln src tls q M I O W) as (r' & run & RR' & -> & _ & _ & _ & X). assert (r' = r) by congruence. subst r'.
  destruct (X NQ Y) as (a' & m & OC & (p & _ & ST & _ & EQ) & ->); [rewrite A; discriminate|intros a0 H; rewrite A in H; injection H as <-; exact PA|].
  rewrite A in OC. cbn in OC. subst a'. rewrite (EQ (or_intror (conj E V))).
  assert (T : is l ["tcp"; "udp"]) by (apply is1 in E; unfold is; rewrite E; cbn; tauto). destruct (ST T) as [[_ ->]|[N _]]; [reflexivity|contradiction].
Qed.
End W.

(** Such a listener *)
Lemma X_udp : exists ln, made X_w "u" (X_l "10.0.0.1" "udp" 4 "" "r2" "" "" "" "") ln /\
  b_truncate N bytes X_b 512 (X_a 2) <> X_a 2 /\
  serve _ _ _ _ X_w X_b "u" ln (AMsg [10;1;1;1]%N "" X_q) = Ran bytes ([Call X_q (Client [10;1;1;1]%N "" "" "u")], Written (X_a 2)).
Proof. eexists. split; [|split]; [exists None; eexists; exists None; split; reflexivity|discriminate|vm_compute; reflexivity]. Qed.
(** The admin service and the ODoH target serve clients that are not in allowed-net *)
Lemma X_admin : exists l ln h, made X_w "a" l ln /\ is l ["admin"] /\ ~ served X_w l (peer X_w X_b h) /\ serve _ _ _ _ X_w X_b "a" ln (AHttp h "" "") = Metrics bytes.
Proof.
  exists (X_l "10.0.0.1:80" "admin" 0 "" "" "" "" "" ""). eexists. exists (X_h "/routedns/vars" "192.0.2.1" "" []). split; [exists None; eexists; exists None; split; reflexivity|].
  split; [left; reflexivity|]. split; [exact X_outside|reflexivity].
Qed.
Lemma X_target : exists l ln h, made X_w "o" l ln /\ is l ["odoh"] /\ ~ served X_w l (peer X_w X_b h) /\
  serve _ _ _ _ X_w X_b "o" ln (AHttp h "" "") = Ran bytes ([Call X_q (Client [] "" "dns.example" "o")], Body [99; 1]%N).
Proof.
  exists (X_l "" "odoh" 0 "" "r2" "0a0b" "" "" ""). eexists. exists (X_h "/dns-query" "192.0.2.1" "application/oblivious-dns-message" [1]%N).
  split; [exists None; eexists; exists None; split; reflexivity|]. split; [left; reflexivity|]. split; [exact X_outside|vm_compute; reflexivity].
Qed.
(** A mode that does not exist is accepted and nothing is served *)
Lemma X_mode : exists l ln, made X_w "o" l ln /\ is l ["odoh"] /\ l_mode l = "Target" /\ forall h host path, serve _ _ _ _ X_w X_b "o" ln (AHttp h host path) = NotFound bytes.
Proof.
  exists (X_l "" "odoh" 0 "" "r2" "0a0b" "Target" "" ""). eexists. split; [exists None; eexists; exists None; split; reflexivity|]. split; [left; reflexivity|]. split; reflexivity.
Qed.
(** A listener in a namespace that can never be made does not stop the start *)
Lemma X_lazy : exists l p, started X_w "d" l None p /\ (forall rnd, p_build _ _ _ _ p rnd = None) /\ forall rnd, ~ makeable X_w l rnd.
Proof.
  exists (X_l "" "doh" 0 "QUIC" "r1" "" "" "blue" ""). eexists. split; [reflexivity|]. split; [reflexivity|]. intros rnd [H _].
  destruct (H (or_intror (or_introl eq_refl))) as [X|[X|[X|[]]]]; discriminate.
Qed.
(** The same at the host is refused *)
Lemma X_eager : forall rnd p, ~ started X_w "d" (X_l "" "doh" 0 "QUIC" "r1" "" "" "" "") rnd p.
Proof. intros rnd p H. discriminate H. Qed.
