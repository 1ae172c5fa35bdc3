(* C75 *)
From Verif Require Import Base Iana Crypto Config Ext Msg Cipher Conn S_Hist S_Conn S_Server S_Honest S_Terms P_Honest10 P_Terms P_Terms2 Toy P_Toy P_HonestToy T_Honest.

(* Full statement: once two honest endpoints are connected, they say the same
   of the cipher suite, the group, the signature algorithm, the application
   protocol, the fragment length, the certificate type and the heartbeats, and
   whatever happens afterwards they go on saying it.  Missing: the group, of
   which the client says nothing, and the signature algorithm, of which the
   server says nothing (c75_silence_refuted). *)
Theorem c75_agree_partial : forall C gc gs c s opc ops, honest_crypto C -> compatible C gc gs c s ->
  wide_fragments gc -> first_share gc gs -> no_ccm gc gs ->
  same_terms C gc gs (run C opc (run C (client_ops C c s) c)) (run C ops (run C (server_ops C c s) s)).
Proof. exact agree. Qed.
Print Assumptions c75_agree_partial.

(* after the handshake, whatever the peer, the network and the user do *)
Theorem c75_fixed : forall C g c ops, reachable C g c -> over c ->
  over (run C ops c) /\ c_nc (run C ops c) = c_nc c.
Proof. exact terms_fixed. Qed.
Print Assumptions c75_fixed.

Theorem c75_client_knows : forall C g c, reachable C g c -> g_side g = Client -> c_state c = Connected -> client_knows c.
Proof. exact client_known. Qed.
Print Assumptions c75_client_knows.

Theorem c75_server_knows : forall C g c, reachable C g c -> g_side g = Server -> c_state c = Connected -> server_knows c.
Proof. exact server_known. Qed.
Print Assumptions c75_server_knows.

(* no client ever says which group was chosen: it assigns key_exchanges
   instead of key_exchange; no server ever says with which algorithm it signed *)
Theorem c75_client_silent : forall C g c, reachable C g c -> g_side g = Client -> tells n_group c = None.
Proof. exact client_silent. Qed.
Print Assumptions c75_client_silent.

Theorem c75_server_silent : forall C g c, reachable C g c -> g_side g = Server ->
  tells n_sigalg c = None /\ tells n_peer_cert c = None /\ tells n_peer_key c = None.
Proof. exact server_silent. Qed.
Print Assumptions c75_server_silent.

Theorem c75_silence_refuted : exists C gc gs c s, honest_crypto C /\ compatible C gc gs c s /\
  wide_fragments gc /\ first_share gc gs /\ no_ccm gc gs /\
  let c' := run C (client_ops C c s) c in let s' := run C (server_ops C c s) s in
  c_state c' = Connected /\ c_state s' = Connected /\
  tells n_group c' <> tells n_group s' /\ tells n_sigalg c' <> tells n_sigalg s'.
Proof.
  destruct c27_case as (H1 & H2 & H3 & H4 & H5). exists toy, c27_gc, c27_gs, (toy_c c27_gc), (toy_s c27_gs).
  split; [exact H1|]. split; [exact H2|]. split; [exact H3|]. split; [exact H4|]. split; [exact H5|].
  exact (disagree _ _ _ _ _ H1 H2 H3 H4 H5).
Qed.
Print Assumptions c75_silence_refuted.

(* endpoints of both sides that are connected *)
Example c75_case : exists c s, reachable toy c27_gc c /\ g_side c27_gc = Client /\ c_state c = Connected /\ over c /\
  reachable toy c27_gs s /\ g_side c27_gs = Server /\ c_state s = Connected /\ over s.
Proof.
  destruct c27_case as (H1 & H2 & H3 & H4 & H5). exact (both_connected toy c27_gc c27_gs (toy_c c27_gc) (toy_s c27_gs) H1 H2 H3 H4 H5).
Qed.
(* the hypotheses of c75_agree_partial: c27_case *)
Example c75_case2 : honest_crypto toy /\ compatible toy c27_gc c27_gs (toy_c c27_gc) (toy_s c27_gs) /\
  wide_fragments c27_gc /\ first_share c27_gc c27_gs /\ no_ccm c27_gc c27_gs.
Proof. exact c27_case. Qed.
