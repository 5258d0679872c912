From Verif Require Import Base Bytes Dns Net Cidr_spec Net_spec Modifiers_spec Router_model Addr_model Addr_spec XDial_model XDial_spec LSock_model LSock_spec.
From Verif Require Import LCfg_model LCfg_spec LCfg_proofs LCfg_proofs2 LCfg_proofs3 LCfg_proofs4 Port_spec Port_proofs.
Local Open Scope string_scope.

Lemma socket_dtls_whole R CA Cert Key (w : world R CA Cert Key) id l ln a h po : made w id l ln -> listens l a -> is l ["dtls"] -> hostport a h po ->
  ((forall n, ~ whole po n) -> Start R CA Cert Key w ln = None) /\
  (forall n, whole po n -> (l_xsocket l <> "" -> Start R CA Cert Key w ln = None) /\
      (l_xsocket l = "" -> exists s, Start R CA Cert Key w ln = Some s /\ at_place (asked l a) (k_place s) /\ k_type s = Dgram /\
         one_version (k_net s) 0 /\ k_addr s = Udp (w_ip w h) n /\ options (k_opts s) = [])).
Proof.
  intros M L I H. pose proof (socket_dtls w id l ln a h po M L I H) as X. split.
  - intros N. apply whole_none in N. rewrite N in X. exact X.
  - intros n W. apply whole_iff in W. rewrite W in X. exact X.
Qed.
