(** C40: upstream responses must echo the question (message.go validateResponseQuestion and its
    callers in dohclient.go, odohclient.go, doqclient.go and pipeline.go). *)
From Verif Require Import Base Bytes Dns Modifiers_model Modifiers_spec Listener_model Listener_spec Client_model Client_spec Client_proofs Pipeline_model Pipeline_spec Pipeline_proofs3.
Local Open Scope N_scope.

Theorem C40_check q a : validateResponseQuestion q a = true <-> echoes q a.
Proof. exact (echoes_spec q a). Qed.
Print Assumptions C40_check.

(** DoH: exactly the messages that arrive completely, decode and echo the question are returned. *)
Theorem C40_doh base optlen unpack pack base64 expand http o q a :
  let run := doh_resolve base optlen unpack pack base64 expand http o q in
  snd run = Ans a <-> exists req r b, fst run = [req] /\ http req = Some r /\ success r b /\ unpack b = Some a /\ echoes q a.
Proof. exact (doh_answer base optlen unpack pack base64 expand http o q a). Qed.
Print Assumptions C40_doh.

(** ODoH: likewise after decryption *)
Theorem C40_odoh unpack pack base64 expand http encrypt decrypt config with_target o q a :
  let run := odoh_resolve unpack pack base64 expand http encrypt decrypt config with_target o q in
  snd run = Ans a <-> exists req r b d, fst run = [req] /\ http req = Some r /\ success r b /\ hr_ctype r = "application/oblivious-dns-message"%string /\
    decrypt b = Some d /\ unpack d = Some a /\ echoes q a.
Proof. exact (odoh_answer unpack pack base64 expand http encrypt decrypt config with_target o q a). Qed.
Print Assumptions C40_odoh.

(** DoQ: the message of the stream the query was written to, with the ID of the query *)
Theorem C40_doq unpack pack answer : (forall b a, unpack b = Some a -> opt_wf a) ->
  forall conn dials q a, let run := doq_resolve unpack pack answer conn dials q in
  snd run = Ans a <-> exists c b data p a0, In (Wrote c b) (fst run) /\ answer c b = Some data /\ framed p data /\ unpack p = Some a0 /\
    with_id (m_id q) a0 a /\ echoes q a /\ ~ keepalive a.
Proof. exact (doq_answer unpack pack answer). Qed.
Print Assumptions C40_doq.

(** Plain, DoT and DTLS: the callers of the pipeline *)
Theorem C40_pipeline l s k a : reached l s -> callers s k = CRet (Ans a) -> exists q, In (ECall k q) l /\ obtained s k q a /\ echoes q a.
Proof. exact (pipe_answer l s k a). Qed.
Print Assumptions C40_pipeline.

(** Examples *)
Definition C40_q : msg := set_question [Q "A.example." 1 1; Q "b." 1 1] (set_id 7 empty_msg).
Definition C40_a (n : string) (t : N) : msg := set_answer [RR n t 1 60 (DA [1;2;3;4])] (set_question [Q n t 1] empty_msg).
Definition C40_run (a : msg) : list hreq * result :=
  doh_resolve (fun _ => 40) (fun _ => 4) (fun _ => Some a) (fun _ => Some [1;2]) (fun _ => "b64"%string) (fun _ => Some "u"%string)
    (fun _ => Some (HResp 200 "" [9;9] false)) (DohCOpt "GET" "quic" true) C40_q.
Example C40_case : C40_run (C40_a "a.EXAMPLE." 1) = ([HReq "GET_0RTT" "u" []], Ans (C40_a "a.EXAMPLE." 1)).
Proof. vm_compute. reflexivity. Qed.
Example C40_name : snd (C40_run (C40_a "b." 1)) = Err "question".
Proof. vm_compute. reflexivity. Qed.
Example C40_type : snd (C40_run (C40_a "a.example." 28)) = Err "question".
Proof. vm_compute. reflexivity. Qed.
Example C40_missing : snd (C40_run empty_msg) = Err "question".
Proof. vm_compute. reflexivity. Qed.
Example C40_doq_ex : doq_resolve (fun _ => Some (C40_a "a.example." 1)) (fun _ => Some [1;2]) (fun _ _ => Some [0;1;5]) None [Some (QConn 1 HsLater true)] C40_q
  = ([Dialed (QConn 1 HsLater true); Opened (QConn 1 HsLater true); Wrote (QConn 1 HsLater true) [0;2;1;2]], Ans (set_id 7 (C40_a "a.example." 1))).
Proof. vm_compute. reflexivity. Qed.
