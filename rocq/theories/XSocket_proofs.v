(** The socket server *)
From Verif Require Import Base Bytes XSocket_model XSocket_spec.
From Coq Require Import ZArith ZifyBool ZifyNat ZifyN.
Local Open Scope N_scope.

Lemma flags_split t : N.land t 526336 = (if N.testbit t 11 then 2048 else 0) + (if N.testbit t 19 then 524288 else 0).
Proof.
  transitivity (N.lor (if N.testbit t 11 then 2048 else 0) (if N.testbit t 19 then 524288 else 0)).
  - apply N.bits_inj. intros k. rewrite N.land_spec, N.lor_spec. replace 526336 with (N.lor (2 ^ 11) (2 ^ 19)) by reflexivity. rewrite N.lor_spec, !N.pow2_bits_eqb.
    assert (A : forall (b : bool) n, N.testbit (if b then 2 ^ n else 0) k = b && (n =? k)) by (intros [|] n; [apply N.pow2_bits_eqb|apply N.bits_0]).
    change 2048 with (2 ^ 11). change 524288 with (2 ^ 19). rewrite !A. destruct (N.eqb_spec 11 k) as [<-|N1]; [cbn [N.eqb]; rewrite !andb_true_r, andb_false_r, orb_false_r; reflexivity|].
    destruct (N.eqb_spec 19 k) as [<-|N2]; [rewrite !andb_true_r, andb_false_r; reflexivity|]. rewrite !andb_false_r. reflexivity.
  - destruct (N.testbit t 11), (N.testbit t 19); reflexivity.
Qed.
Lemma split_flags t : t = N.ldiff t 526336 + N.land t 526336.
Proof.
  assert (Z : N.land (N.ldiff t 526336) (N.land t 526336) = 0).
  { apply N.bits_inj_0. intros k. rewrite !N.land_spec, N.ldiff_spec. destruct (N.testbit t k), (N.testbit 526336 k); reflexivity. }
  rewrite (N.add_nocarry_lxor _ _ Z), (N.lxor_lor _ _ Z), N.lor_ldiff_and. reflexivity.
Qed.
Lemma base_cases t base : N.ldiff t 526336 = base -> t = base \/ t = base + 2048 \/ t = base + 524288 \/ t = base + 526336.
Proof. intros E. pose proof (split_flags t) as S. rewrite E, flags_split in S. destruct (N.testbit t 11), (N.testbit t 19); cbn in S; lia. Qed.
Lemma allowed_iff d t p : allowedSocket d t p = true <-> ip_socket d t p.
Proof.
  unfold allowedSocket, ip_socket, AF_INET, AF_INET6, SOCK_STREAM, SOCK_DGRAM, IPPROTO_TCP, IPPROTO_UDP. change (N.lor SOCK_CLOEXEC SOCK_NONBLOCK) with 526336. cbv zeta. split.
  - destruct (negb (d =? 2) && negb (d =? 10)) eqn:E; [discriminate|]. destruct (N.eqb_spec (N.ldiff t 526336) 1) as [E1|N1]; [|destruct (N.eqb_spec (N.ldiff t 526336) 2) as [E2|N2]; [|discriminate]]; intros H; (split; [lia|]).
    + exists 1. split; [left; split; [reflexivity|lia]|]. apply base_cases, E1.
    + exists 2. split; [right; split; [reflexivity|lia]|]. apply base_cases, E2.
  - intros (D & base & B & T). replace (negb (d =? 2) && negb (d =? 10)) with false by lia.
    destruct B as [[-> P]|[-> P]]; [assert (L : N.ldiff t 526336 = 1) by (destruct T as [->|[->|[->| ->]]]; reflexivity)|assert (L : N.ldiff t 526336 = 2) by (destruct T as [->|[->|[->| ->]]]; reflexivity)];
      rewrite L; cbn [N.eqb Pos.eqb]; lia.
Qed.
Lemma cloexec_ip d t p : ip_socket d t p -> ip_socket d (N.lor t 524288) p.
Proof.
  intros (D & base & B & T). split; [exact D|]. exists base. split; [exact B|]. destruct B as [[-> _]|[-> _]]; destruct T as [->|[->|[->| ->]]]; cbn; auto.
Qed.

Section SERVER.
Variable sock : nat -> N -> N -> N -> N + nat.
Variable sent : nat -> bool.
Lemma restricted : forall msgs i d t p r, In (Socket d t p r) (handle false sock sent i msgs) -> ip_socket d t p.
Proof.
  induction msgs as [|[m|] msgs IH]; intros i d t p r; cbn [handle]; [intros [H|[]]; discriminate H| |intros [H|[]]; discriminate H].
  destruct (Nat.eqb _ 0); [intros [H|[]]; discriminate H|]. destruct (_ || _); [intros [H|[]]; discriminate H|]. cbv zeta. cbn [negb andb].
  assert (G : forall e fds, In (Socket d t p r) (Send e fds :: map CloseFd fds ++ (if sent i then handle false sock sent (S i) msgs else [CloseConn])) -> ip_socket d t p).
  { intros e fds [H|H]; [discriminate H|]. apply in_app_or in H. destruct H as [H|H]; [apply in_map_iff in H; destruct H as (x & H & _); discriminate H|]. destruct (sent i); [exact (IH _ _ _ _ _ H)|]. destruct H as [H|[]]; discriminate H. }
  destruct (allowedSocket _ _ _) eqn:A; cbn [negb]; [|apply G]. apply allowed_iff in A. intros [H|H].
  - injection H as <- <- <- _. apply cloexec_ip, A.
  - destruct (sock _ _ _ _); exact (G _ _ H).
Qed.
End SERVER.

Lemma put32_be n : n < 4294967296 -> be32 n (put32 n).
Proof.
  intros H. unfold put32. exists (n / 16777216 mod 256), (n / 65536 mod 256), (n / 256 mod 256), (n mod 256). split; [reflexivity|]. repeat (split; [apply N.mod_lt; discriminate|]).
  assert (E1 : n = 256 * (n / 256) + n mod 256) by (apply N.div_mod; discriminate). assert (E2 : n / 256 = 256 * (n / 65536) + n / 256 mod 256) by (change 65536 with (256 * 256); rewrite <- N.div_div by discriminate; apply N.div_mod; discriminate).
  assert (E3 : n / 65536 = 256 * (n / 16777216) + n / 65536 mod 256) by (change 16777216 with (65536 * 256); rewrite <- N.div_div by discriminate; apply N.div_mod; discriminate).
  assert (E4 : n / 16777216 mod 256 = n / 16777216) by (apply N.mod_small, N.div_lt_upper_bound; [discriminate|exact H]). lia.
Qed.
Lemma get32_be n l a b : be32 n l -> get32 (length a) (a ++ l ++ b) = n.
Proof.
  intros (x & y & z & w & -> & _ & _ & _ & _ & ->). unfold get32. do 4 rewrite (app_nth2 a) by lia. replace (length a - length a)%nat with O by lia. replace (length a + 1 - length a)%nat with 1%nat by lia.
  replace (length a + 2 - length a)%nat with 2%nat by lia. replace (length a + 3 - length a)%nat with 3%nat by lia. cbn [nth app]. ring.
Qed.

Lemma be32_len n l : be32 n l -> length l = 4%nat. Proof. intros (a & b & c & d & -> & _). reflexivity. Qed.
Lemma be32_byte n l : be32 n l -> n < 4294967296. Proof. intros (a & b & c & d & -> & H). lia. Qed.
Lemma sig_be : be32 xsProtocolRequest [88; 83; 48; 49].
Proof. exists 88, 83, 48, 49. repeat split; reflexivity. Qed.
Lemma resp_be : be32 xsProtocolResponse [88; 83; 48; 50].
Proof. exists 88, 83, 48, 50. repeat split; reflexivity. Qed.
Lemma be32_det n l l' : be32 n l -> be32 n l' -> l = l'.
Proof.
  intros (a & b & c & d & -> & A1 & A2 & A3 & A4 & ->) (a' & b' & c' & d' & -> & B1 & B2 & B3 & B4 & E). assert (a = a') by lia. subst a'. assert (b = b') by lia. subst b'. assert (c = c') by lia. subst c'. assert (d = d') by lia. subst. reflexivity.
Qed.
Lemma put32_resp : put32 xsProtocolResponse = [88; 83; 48; 50]. Proof. reflexivity. Qed.
Lemma put32_req : put32 xsProtocolRequest = [88; 83; 48; 49]. Proof. reflexivity. Qed.

Section ONE.
Variable u : bool.
Variable sock : nat -> N -> N -> N -> N + nat.
Variable sent : nat -> bool.
Lemma malformed i m msgs : Forall (fun b => b < 256) m -> ~ well_formed m -> handle u sock sent i (Some m :: msgs) = [CloseConn].
Proof.
  intros BY NW. cbn [handle]. destruct (Nat.eqb (length (firstn 16 m)) 0) eqn:E0; [reflexivity|]. destruct (Nat.ltb (length (firstn 16 m)) 16 || negb (get32 0 (firstn 16 m) =? xsProtocolRequest)) eqn:E; [reflexivity|]. exfalso. apply NW.
  apply orb_false_iff in E. destruct E as [E1 E2]. apply Nat.ltb_ge in E1. apply negb_false_iff, N.eqb_eq in E2. assert (L : (16 <= length m)%nat) by (rewrite firstn_length in E1; lia).
  destruct m as [|a [|b [|c [|d m]]]]; cbn in L; try lia. repeat (apply Forall_cons_iff in BY as [? BY]). unfold get32, xsProtocolRequest in E2. cbn [firstn nth Nat.add] in E2.
  assert (a = 88) by lia. assert (b = 83) by lia. assert (c = 48) by lia. assert (d = 49) by lia. subst. exists (firstn 12 m), (skipn 12 m). split; [cbn [app]; rewrite firstn_skipn; reflexivity|]. rewrite firstn_length. lia.
Qed.
Definition reply (i : nat) (errno : N) (fds : list nat) (msgs : list (option (list N))) : list event :=
  Send ([88; 83; 48; 50] ++ put32 errno) fds :: map CloseFd fds ++ (if sent i then handle u sock sent (S i) msgs else [CloseConn]).
Lemma one_request i d da t ta p pa extra msgs : be32 d da -> be32 t ta -> be32 p pa ->
  handle u sock sent i (Some ([88; 83; 48; 49] ++ da ++ ta ++ pa ++ extra) :: msgs) =
  if negb u && negb (allowedSocket d t p) then reply i EPERM [] msgs
  else Socket d (N.lor t SOCK_CLOEXEC) p (sock i d (N.lor t SOCK_CLOEXEC) p) :: match sock i d (N.lor t SOCK_CLOEXEC) p with inl e => reply i e [] msgs | inr fd => reply i 0 [fd] msgs end.
Proof.
  intros D T P. pose proof (be32_len _ _ D) as L1. pose proof (be32_len _ _ T) as L2. pose proof (be32_len _ _ P) as L3. cbn [handle].
  assert (F : firstn 16 ([88; 83; 48; 49] ++ da ++ ta ++ pa ++ extra) = [88; 83; 48; 49] ++ da ++ ta ++ pa).
  { rewrite !app_assoc. rewrite firstn_app. rewrite (firstn_all2 (((_ ++ _) ++ _) ++ _)) by (rewrite !app_length; cbn; lia). rewrite !app_length, L1, L2, L3. cbn. rewrite app_nil_r. reflexivity. }
  rewrite F. assert (L : length ([88; 83; 48; 49] ++ da ++ ta ++ pa) = 16%nat) by (rewrite !app_length, L1, L2, L3; reflexivity). rewrite L.
  replace (get32 0 ([88; 83; 48; 49] ++ da ++ ta ++ pa)) with xsProtocolRequest by (symmetry; exact (get32_be _ _ [] (da ++ ta ++ pa) sig_be)).
  replace (get32 4 ([88; 83; 48; 49] ++ da ++ ta ++ pa)) with d by (symmetry; exact (get32_be _ _ [88; 83; 48; 49] (ta ++ pa) D)).
  replace (get32 8 ([88; 83; 48; 49] ++ da ++ ta ++ pa)) with t.
  2: { symmetry. replace 8%nat with (length ([88; 83; 48; 49] ++ da)) by (rewrite app_length, L1; reflexivity). rewrite app_assoc. apply get32_be, T. }
  replace (get32 12 ([88; 83; 48; 49] ++ da ++ ta ++ pa)) with p.
  2: { symmetry. replace 12%nat with (length (([88; 83; 48; 49] ++ da) ++ ta)) by (rewrite !app_length, L1, L2; reflexivity). rewrite !app_assoc, <- (app_nil_r pa) at 1. apply get32_be, P. }
  cbn [Nat.eqb Nat.ltb Nat.leb orb]. rewrite N.eqb_refl. cbn [negb]. cbv zeta. unfold reply. rewrite put32_resp. destruct (negb u && negb (allowedSocket d t p)); [reflexivity|]. destruct (sock i d (N.lor t SOCK_CLOEXEC) p); reflexivity.
Qed.
Lemma created i d da t ta p pa extra msgs fd : be32 d da -> be32 t ta -> be32 p pa -> u = true \/ ip_socket d t p -> sock i d (N.lor t 524288) p = inr fd ->
  handle u sock sent i (Some ([88; 83; 48; 49] ++ da ++ ta ++ pa ++ extra) :: msgs) =
  Socket d (N.lor t 524288) p (inr fd) :: Send [88; 83; 48; 50; 0; 0; 0; 0] [fd] :: CloseFd fd :: (if sent i then handle u sock sent (S i) msgs else [CloseConn]).
Proof.
  intros D T P A S. rewrite (one_request _ _ _ _ _ _ _ _ _ D T P). change SOCK_CLOEXEC with 524288. rewrite S. replace (negb u && negb (allowedSocket d t p)) with false; [reflexivity|]. destruct A as [->|A]; [reflexivity|]. apply allowed_iff in A. rewrite A, andb_false_r. reflexivity.
Qed.
Lemma failed i d da t ta p pa extra msgs e : be32 d da -> be32 t ta -> be32 p pa -> u = true \/ ip_socket d t p -> sock i d (N.lor t 524288) p = inl e -> e < 4294967296 -> exists eb, be32 e eb /\
  handle u sock sent i (Some ([88; 83; 48; 49] ++ da ++ ta ++ pa ++ extra) :: msgs) =
  Socket d (N.lor t 524288) p (inl e) :: Send ([88; 83; 48; 50] ++ eb) [] :: (if sent i then handle u sock sent (S i) msgs else [CloseConn]).
Proof.
  intros D T P A S L. exists (put32 e). split; [apply put32_be, L|]. rewrite (one_request _ _ _ _ _ _ _ _ _ D T P). change SOCK_CLOEXEC with 524288. rewrite S. replace (negb u && negb (allowedSocket d t p)) with false; [reflexivity|]. destruct A as [->|A]; [reflexivity|]. apply allowed_iff in A. rewrite A, andb_false_r. reflexivity.
Qed.
Lemma refused i d da t ta p pa extra msgs : be32 d da -> be32 t ta -> be32 p pa -> u = false -> ~ ip_socket d t p ->
  handle u sock sent i (Some ([88; 83; 48; 49] ++ da ++ ta ++ pa ++ extra) :: msgs) =
  Send [88; 83; 48; 50; 0; 0; 0; 1] [] :: (if sent i then handle u sock sent (S i) msgs else [CloseConn]).
Proof.
  intros D T P U A. rewrite (one_request _ _ _ _ _ _ _ _ _ D T P). rewrite U at 1. destruct (allowedSocket d t p) eqn:E; [destruct A; apply allowed_iff, E|]. reflexivity.
Qed.
(** The descriptors that the server creates are closed by it and sent to nobody but the client that asked. *)
Lemma closed i msgs : forall fd d t p, In (Socket d t p (inr fd)) (handle u sock sent i msgs) -> In (CloseFd fd) (handle u sock sent i msgs).
Proof.
  revert i. induction msgs as [|[m|] msgs IH]; intros i fd d t p; cbn [handle]; [intros [H|[]]; discriminate H| |intros [H|[]]; discriminate H].
  destruct (Nat.eqb _ 0); [intros [H|[]]; discriminate H|]. destruct (_ || _); [intros [H|[]]; discriminate H|]. cbv zeta. generalize (firstn 16 m). intros req.
  assert (G : forall e fds, In (Socket d t p (inr fd)) (Send e fds :: map CloseFd fds ++ (if sent i then handle u sock sent (S i) msgs else [CloseConn])) -> In (CloseFd fd) (Send e fds :: map CloseFd fds ++ (if sent i then handle u sock sent (S i) msgs else [CloseConn]))).
  { intros e fds [H|H]; [discriminate H|]. apply in_app_or in H. destruct H as [H|H]; [apply in_map_iff in H; destruct H as (x & H & _); discriminate H|]. right. apply in_or_app. right. destruct (sent i); [exact (IH _ _ _ _ _ H)|]. destruct H as [H|[]]; discriminate H. }
  destruct (negb u && _); [apply G|]. destruct (sock i (get32 4 req) _ _) as [e|x] eqn:E; intros [H|H].
  - discriminate H.
  - right. exact (G _ _ H).
  - injection H as _ _ _ H. right. rewrite H. right. left. reflexivity.
  - right. exact (G _ _ H).
Qed.
Lemma stops i m msgs : m = None -> handle u sock sent i (m :: msgs) = [CloseConn]. Proof. intros ->. reflexivity. Qed.
End ONE.

(** Client *)
Lemma request_bytes d t p : d < 4294967296 -> t < 4294967296 -> p < 4294967296 -> exists da ta pa, be32 d da /\ be32 t ta /\ be32 p pa /\ request d t p = [88; 83; 48; 49] ++ da ++ ta ++ pa.
Proof. intros D T P. exists (put32 d), (put32 t), (put32 p). repeat (split; [apply put32_be; assumption|]). reflexivity. Qed.
Lemma client_gets fd : response [88; 83; 48; 50; 0; 0; 0; 0] [fd] = (Some fd, []). Proof. reflexivity. Qed.
Lemma client_error e eb fds : be32 e eb -> e <> 0 -> response ([88; 83; 48; 50] ++ eb) fds = (None, fds).
Proof.
  intros B NE. unfold response. pose proof (be32_len _ _ B) as L. rewrite (firstn_all2 (n := 8)) by (cbn; lia). replace (length ([88; 83; 48; 50] ++ eb)) with 8%nat by (rewrite app_length, L; reflexivity). cbn [Nat.ltb Nat.leb].
  replace (get32 0 ([88; 83; 48; 50] ++ eb)) with xsProtocolResponse by (symmetry; exact (get32_be _ _ [] eb resp_be)). rewrite N.eqb_refl. cbn [negb].
  replace (get32 4 ([88; 83; 48; 50] ++ eb)) with e by (symmetry; rewrite <- (app_nil_r eb) at 1; exact (get32_be _ _ [88; 83; 48; 50] [] B)). destruct (N.eqb_spec e 0); [contradiction|reflexivity].
Qed.
Lemma client_keeps data fds : well_signed data -> (exists fd rest, fds = fd :: rest /\ response data fds = (Some fd, rest)) \/ (response data fds = (None, fds)).
Proof.
  intros (a & b & -> & L). unfold response. destruct (Nat.ltb _ 8) eqn:E; [apply Nat.ltb_lt in E; rewrite firstn_length, !app_length in E; cbn [length] in E; lia|].
  replace (get32 0 ([88; 83; 48; 50] ++ a ++ b)) with xsProtocolResponse by (symmetry; exact (get32_be _ _ [] (a ++ b) resp_be)). rewrite N.eqb_refl. cbn [negb].
  destruct (negb _); [right; reflexivity|]. destruct fds as [|fd rest]; [right; reflexivity|left; eauto].
Qed.
Lemma client_leak : exists data fds, fds <> [] /\ response data fds = (None, []).
Proof. exists [0; 0; 0; 0; 0; 0; 0; 0], [3%nat]. split; [discriminate|reflexivity]. Qed.
