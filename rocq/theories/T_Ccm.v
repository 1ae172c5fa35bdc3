(* C27: with which suites a connection can be established *)
From Verif Require Import Base Iana Crypto Config Cipher Conn S_Hist S_Conn S_Send S_Nonce S_Alert S_Utils S_Keys S_Utils S_Server Toy P_Toy P_Ccm T_Alert T_Server T_Agree.

(* The universal side of c27_ccm_refuted: whoever the peer is and whatever it
   sends, a connected endpoint never negotiated TLS_AES_128_CCM_SHA256 or
   TLS_AES_128_CCM_8_SHA256, even when its configuration lists nothing else. *)
Theorem c27_ccm_client : forall C g c, aead_sized C -> hmac_sized C -> hash_sized C ->
  g_side g = Client -> reachable C g c -> c_state c = Connected ->
  exists nc suite, c_nc c = Some nc /\ n_suite nc = Some suite /\
    In suite [TLS_AES_128_GCM_SHA256; TLS_AES_256_GCM_SHA384; TLS_CHACHA20_POLY1305_SHA256].
Proof. exact client_no_ccm. Qed.
Print Assumptions c27_ccm_client.

Theorem c27_ccm_server : forall C g s, aead_sized C -> hmac_sized C -> hash_sized C ->
  g_side g = Server -> started C g s -> c_state s = Connected ->
  exists nc suite, c_nc s = Some nc /\ n_suite nc = Some suite /\
    In suite [TLS_AES_128_GCM_SHA256; TLS_AES_256_GCM_SHA384; TLS_CHACHA20_POLY1305_SHA256].
Proof. exact server_no_ccm. Qed.
Print Assumptions c27_ccm_server.

Example c27_case_ccm : reachable toy toy_client c43_c /\ c_state c43_c = Connected /\
  started toy toy_server c17_s /\ c_state c17_s = Connected.
Proof. destruct c50_case as (_ & _ & _ & _ & A & B & _ & _ & D & E & _). auto. Qed.
