(** Concrete instances for the theorems about the Redis backend. *)
From Verif Require Import Base Base_proofs Bytes Bytes_proofs Dns Net Blob_model Cache_model Cache_spec Cache_demo Redis_model Redis_spec Redis_proofs.
From Coq Require Import ZifyBool ZifyNat ZifyN.
From Coq Require Import DecimalString.
Open Scope N_scope.

(** Text forms that meet the assumptions *)
Definition toy_class (c : N) : string := ("CLASS" ++ itoa c)%string.
Definition toy_type (c : N) : string := ("TYPE" ++ itoa c)%string.
Lemma uint_no_colon d : contains colon (NilEmpty.string_of_uint d) = false.
Proof. induction d; cbn [NilEmpty.string_of_uint contains]; try reflexivity; rewrite IHd; reflexivity. Qed.
Lemma itoa_no_colon n : contains colon (itoa n) = false.
Proof. unfold itoa, NilZero.string_of_uint. destruct (N.to_uint n); try apply uint_no_colon; reflexivity. Qed.
Lemma toy_class_ok : class_text_ok toy_class.
Proof.
  split.
  - intros c _. split; [exists "C"%char, ("LASS" ++ itoa c)%string; split; reflexivity|]. apply itoa_no_colon.
  - intros c d _ _ E. unfold toy_class in E. apply string_app_inj_l in E. apply itoa_inj, E.
Qed.
Lemma toy_type_ok : type_text_ok toy_type.
Proof.
  split; [intros c _; apply itoa_no_colon|]. intros c d _ _ E. unfold toy_type in E. apply string_app_inj_l in E. apply itoa_inj, E.
Qed.

Definition nib (n : N) : ascii := ascii_of_N (97 + n).
Fixpoint hex (l : bytes) : string := match l with [] => ""%string | b :: l' => String (nib (b / 16)) (String (nib (b mod 16)) (hex l')) end.
Definition hex_ip (a : bytes) : string := String "x" (hex (canon a)).
Lemma nib_inj a b : a < 16 -> b < 16 -> nib a = nib b -> a = b.
Proof. unfold nib. intros A B E. apply (f_equal N_of_ascii) in E. rewrite !N_ascii_embedding in E by lia. lia. Qed.
Lemma nib_slash n : n < 16 -> Ascii.eqb (nib n) "/" = false.
Proof. intros H. destruct (Ascii.eqb_spec (nib n) "/") as [E|]; [|reflexivity]. exfalso. apply (f_equal N_of_ascii) in E. unfold nib in E. rewrite N_ascii_embedding in E by lia. change (N_of_ascii "/") with 47 in E. lia. Qed.
Lemma hex_inj a : forall b, Forall (fun x => x < 256) a -> Forall (fun x => x < 256) b -> hex a = hex b -> a = b.
Proof.
  induction a as [|x a IH]; intros [|y b] A B E; cbn [hex] in E; try discriminate E; [reflexivity|]. inversion A; subst. inversion B; subst.
  assert (E1 : nib (x / 16) = nib (y / 16)) by congruence. assert (E2 : nib (x mod 16) = nib (y mod 16)) by congruence. assert (E3 : hex a = hex b) by congruence.
  apply nib_inj in E1; [|apply N.div_lt_upper_bound; lia|apply N.div_lt_upper_bound; lia]. apply nib_inj in E2; [|apply N.mod_lt; lia|apply N.mod_lt; lia].
  f_equal; [|apply IH; assumption]. rewrite (N.div_mod x 16), (N.div_mod y 16) by lia. congruence.
Qed.
Lemma hex_len a : String.length (hex a) = (2 * length a)%nat.
Proof. induction a as [|x a IH]; [reflexivity|]. cbn [hex String.length length]. lia. Qed.
Lemma hex_slash a : Forall (fun x => x < 256) a -> contains "/" (hex a) = false.
Proof.
  induction 1 as [|x a X _ IH]; [reflexivity|]. cbn [hex contains]. rewrite !nib_slash, IH; [reflexivity|apply N.mod_lt; lia|apply N.div_lt_upper_bound; lia].
Qed.
Lemma hex_ip_ok : ip_text_ok hex_ip.
Proof.
  split.
  - intros a H. destruct (canon_ok a H) as [_ L]. unfold hex_ip. split; [|discriminate]. cbn [String.length]. rewrite hex_len. lia.
  - intros a b Ha Hb. unfold hex_ip. split; [|congruence]. intros E. assert (E' : hex (canon a) = hex (canon b)) by congruence.
    apply hex_inj; [apply canon_ok, Ha|apply canon_ok, Hb|exact E'].
Qed.
Lemma hex_ip_slash : ip_no_slash hex_ip.
Proof. intros a H. unfold hex_ip. cbn [contains]. rewrite hex_slash by (apply canon_ok, H). reflexivity. Qed.

Definition rq (n : string) (o : list edns0) : msg := Msg 7 false 0 false false true false false false 0 [Q n 1 1] [] [] [RR "." TypeOPT 4096 32768 (DOPT o)].
Lemma rq_ok n o : (String.length n < 100)%nat -> Forall (fun o => match o with ECS _ mask _ addr => mask < 256 /\ addr_ok addr | _ => True end) o -> query_ok (rq n o).
Proof.
  intros L F. split; [discriminate|]. split; [repeat constructor; cbn [q_type q_class q_name]; lia|]. constructor; [exact F|constructor].
Qed.
Lemma keys_hyps : class_text_ok toy_class /\ type_text_ok toy_type /\ ip_text_ok hex_ip /\ ip_no_slash hex_ip /\
  rquery_ok (rq "a:IN:A::." [ECS 1 24 0 [10;0;0;0]]) /\ rquery_ok (rq "A:in:a::." []).
Proof.
  split; [exact toy_class_ok|]. split; [exact toy_type_ok|]. split; [exact hex_ip_ok|]. split; [exact hex_ip_slash|].
  split; (split; [apply rq_ok; [cbn; lia|]|cbn; lia]); repeat constructor; cbn; auto; lia.
Qed.

Definition two1 : msg := rq "a." [ECS 1 2 0 [1;2;3;4]; ECS 1 8 0 [41;1;1;1]].
Definition two2 : msg := rq "a." [ECS 1 24 0 [1;2;3;4]; ECS 1 8 0 [1;1;1;1]].
Lemma two_subnets_refuted : exists q1 q2, query_ok q1 /\ query_ok q2 /\ map subnet_id (subnets q1) <> map subnet_id (subnets q2) /\
  forall ipString classString typeString keyPrefix, ipString [1;1;1;1] = "1.1.1.1"%string -> ipString [41;1;1;1] = "41.1.1.1"%string -> ipString [1;2;3;4] = "1.2.3.4"%string ->
  keyFromQuery ipString classString typeString keyPrefix q1 = keyFromQuery ipString classString typeString keyPrefix q2.
Proof.
  exists two1, two2. split; [|split; [|split]].
  - apply rq_ok; [cbn; lia|repeat constructor; cbn; auto; lia].
  - apply rq_ok; [cbn; lia|repeat constructor; cbn; auto; lia].
  - vm_compute. discriminate.
  - intros ip cl ty p E1 E2 E3. unfold keyFromQuery, two1, two2, rq. cbn [m_question is_edns0 m_extra find_opt rr_type TypeOPT N.eqb Pos.eqb opt_options rr_data write_subnets fold_right write_subnet m_cd q_name q_class q_type].
    rewrite E1, E2, E3. reflexivity.
Qed.

Definition ranswer (n : string) : msg := Msg 7 true 0 false false true true false false 0 [Q n 1 1] [RR n 1 1 300 (DA [10;0;0;1])] [] [].
Definition rpack (a : msg) : option bytes := match m_question a with [Q n _ _] => Some (bytes_of_string n) | _ => None end.
Definition runpack (w : bytes) : option msg := Some (ranswer (string_of_bytes w)).
(** Two answers are stored; the write of the second one arrives first. *)
Definition redis_history : list revent :=
  [RStore (rq "b." []) (Meta (Some (1700000000 * second)%Z) (Some (1700000300 * second)%Z) false) (ranswer "b.") (1700000000 * second)%Z true;
   RStore (rq "a." []) (Meta (Some (1700000001 * second + 5)%Z) (Some (1700000301 * second + 5)%Z) true) (ranswer "a.") (1700000001 * second)%Z true;
   RCommit 1 (1700000002 * second)%Z true; RCommit 0 (1700000003 * second)%Z true].
Lemma hit_run : Forall revent_ok redis_history /\ rfaithful rpack runpack redis_history /\ rtime_ok (1700000008 * second)%Z /\
  exists st, rexec_all hex_ip toy_class toy_type rpack "p" rempty redis_history = Some st /\
  exists r, redis_lookup hex_ip toy_class toy_type runpack "p" (rq "A." []) (1700000008 * second)%Z st = Some (Some (r, true)) /\ map rr_ttl (m_answer r) = [293].
Proof.
  assert (Q : forall n, (String.length n < 100)%nat -> rquery_ok (rq n [])) by (intros n L; split; [apply rq_ok; [exact L|constructor]|cbn; lia]).
  split; [|split; [|split]].
  - unfold redis_history. repeat (apply Forall_cons || apply Forall_nil); cbn [revent_ok]; try exact I; (split; [apply Q; cbn; lia|]); (split; [unfold rtime_ok, second; lia|]); eexists; eexists; (split; [reflexivity|]); (split; [reflexivity|]); unfold rtime_ok, second; split; lia.
  - intros q m a now room w H P. destruct H as [H|[H|[H|[H|[]]]]]; try discriminate H; injection H as <- <- <- <- <-; injection P as <-; reflexivity.
  - unfold rtime_ok, second. lia.
  - eexists. split; [vm_compute; reflexivity|]. eexists. split; vm_compute; reflexivity.
Qed.
