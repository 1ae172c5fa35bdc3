From Verif Require Import Base Iana Crypto Config Ext Msg Cipher Transcript Conn Toy P_Toy
  S_Utils S_Hist S_Conn S_Send S_Speak S_Alert S_Keys S_Auth P_Base P_Alert P_Client P_Client2 T_Alert.

(* C16.  The messages of the handshake are in c_hs; what follows the client's
   Finished there are messages sent or received after the handshake. *)
Theorem c16_authenticated C g c :
  aead_sized C -> hmac_sized C -> hash_sized C -> g_side g = Client -> reachable C g c ->
  require_peer_auth g = true -> c_state c = Connected ->
  exists hello cd vd sd suite h hc group shared alg sig ctx leaf rest sh ee fd junk cct,
    c_hs c = hello ++ [(Server, SERVER_HELLO, sh); EE ee; Cert cd; CV vd; SFin sd; CFin fd] ++ junk /\
    hello_says C g (c_rng c) sh suite group shared /\ suite_hash suite = Some h /\
    says C (Some CT_X509) cd (HCert ctx (leaf :: rest)) /\
    cr_verify_chain C (g_trust g) (g_depth g) (match c_host c with Some [] => None | _ => c_host c end)
      (en_data leaf) (map en_data rest) = Ok tt /\
    says C cct vd (HCertVerify alg sig) /\ In alg (g_sigalgs g) /\
    cr_sig_verify C alg (cr_cert_pubkey C (en_data leaf)) sig
      (signed_content Server (heard_hash C h hc false (hello ++ [(Server, SERVER_HELLO, sh); EE ee; Cert cd]))) = Ok tt /\
    finished_says C h Server shared (heard_hash C h hc false (hello ++ [(Server, SERVER_HELLO, sh)]))
      (heard_hash C h hc false (hello ++ [(Server, SERVER_HELLO, sh); EE ee; Cert cd; CV vd])) sd.
Proof. exact (client_authenticated C g c). Qed.
Print Assumptions c16_authenticated.

(* without HelloRetryRequest the hashes are those of RFC 8446 *)
Theorem c16_authenticated_rfc C g c :
  aead_sized C -> hmac_sized C -> hash_sized C -> g_side g = Client -> reachable C g c ->
  require_peer_auth g = true -> c_state c = Connected ->
  forallb (fun m => negb (is_retry m)) (c_hs c) = true ->
  exists hello cd vd sd suite h group shared alg sig ctx leaf rest sh ee fd junk cct,
    c_hs c = hello ++ [(Server, SERVER_HELLO, sh); EE ee; Cert cd; CV vd; SFin sd; CFin fd] ++ junk /\
    hello_says C g (c_rng c) sh suite group shared /\ suite_hash suite = Some h /\
    says C (Some CT_X509) cd (HCert ctx (leaf :: rest)) /\
    cr_verify_chain C (g_trust g) (g_depth g) (match c_host c with Some [] => None | _ => c_host c end)
      (en_data leaf) (map en_data rest) = Ok tt /\
    says C cct vd (HCertVerify alg sig) /\ In alg (g_sigalgs g) /\
    cr_sig_verify C alg (cr_cert_pubkey C (en_data leaf)) sig
      (signed_content Server (rfc_transcript C h (hello ++ [(Server, SERVER_HELLO, sh); EE ee; Cert cd]))) = Ok tt /\
    finished_says C h Server shared (rfc_transcript C h (hello ++ [(Server, SERVER_HELLO, sh)]))
      (rfc_transcript C h (hello ++ [(Server, SERVER_HELLO, sh); EE ee; Cert cd; CV vd])) sd.
Proof. exact (client_authenticated_rfc C g c). Qed.
Print Assumptions c16_authenticated_rfc.

Example c16_case : aead_sized toy /\ hmac_sized toy /\ hash_sized toy /\ g_side toy_client = Client /\
  reachable toy toy_client c43_c /\ require_peer_auth toy_client = true /\ c_state c43_c = Connected /\
  forallb (fun m => negb (is_retry m)) (c_hs c43_c) = true.
Proof.
  split; [exact toy_aead_sized|]. split; [exact toy_hmac_sized|]. split; [exact toy_hash_sized|].
  split; [reflexivity|]. split; [exists toy_c0; eexists; split; [exact toy_c0_created | reflexivity]|].
  split; [reflexivity|]. split; vm_compute; reflexivity.
Qed.

(* C19 *)
Theorem c19_settled C g c :
  aead_sized C -> hmac_sized C -> hash_sized C -> g_side g = Client -> reachable C g c ->
  settled (c_state c) = true ->
  exists hello sh ee rest nc suite group shared,
    c_hs c = hello ++ [(Server, SERVER_HELLO, sh); EE ee] ++ rest /\ c_nc c = Some nc /\
    hello_says C g (c_rng c) sh suite group shared /\ n_suite nc = Some suite /\ ee_says C g ee nc /\
    (signed (c_state c) = true -> exists alg vd cct sig, n_sigalg nc = Some alg /\ In alg (g_sigalgs g) /\
       In (CV vd) rest /\ says C cct vd (HCertVerify alg sig)).
Proof. exact (client_settled C g c). Qed.
Print Assumptions c19_settled.

Theorem c19_hello_refused C g c first shares chash random sid suite exts d :
  aead_sized C -> hmac_sized C -> hash_sized C -> g_side g = Client -> reachable C g c ->
  c_state c = ClientWaitServerHello first shares chash ->
  says C None d (HServerHello false random sid suite exts) -> ~ sh_acceptable g suite exts ->
  exists e c', handle_content C CT_HANDSHAKE d c = (Err e, c') /\ can_send (c_state c') = true.
Proof. intros A B D E F. exact (sh_refused C g c A B D E F first shares chash random sid suite exts d). Qed.
Print Assumptions c19_hello_refused.

(* an exception raised in such a state is answered by an alert: c10_alert_partial *)
Theorem c19_extensions_refused C g c exts d :
  aead_sized C -> hmac_sized C -> hash_sized C -> g_side g = Client -> reachable C g c ->
  c_state c = ClientWaitEncryptedExtensions ->
  says C None d (HEncExt exts) -> ~ ee_acceptable g exts ->
  exists e c', handle_content C CT_HANDSHAKE d c = (Err e, c') /\ can_send (c_state c') = true /\ room c'.
Proof. intros A B D E F. exact (ee_refused C g c A B D E F exts d). Qed.
Print Assumptions c19_extensions_refused.

Definition c19_sh : bytes := [x02; x00; x00; x2e] ++ [x03; x03] ++ be_bytes 32 5 ++ [x00; x13; x02; x00; x00; x06; x00; x2b; x00; x02; x03; x04].
Example c19_hello_case : exists shares chash, c_state (run toy [OInit] toy_c0) = ClientWaitServerHello true shares chash /\
  says toy None c19_sh (HServerHello false (be_bytes 32 5) [] 0x1302 [ESupVersionsResp 0x0304]) /\
  ~ sh_acceptable toy_client 0x1302 [ESupVersionsResp 0x0304].
Proof.
  eexists. eexists. split; [vm_compute; reflexivity|]. split; [vm_compute; reflexivity|].
  intros [[E|[E|[]]] _]; discriminate E.
Qed.
Definition c19_c := run toy [OInit; ORecv (btake (5 + of_bytes (btake 2 (bdrop 3 (c_out toy_s2)))) (c_out toy_s2))] toy_c0.
Definition c19_ee : bytes := [x08; x00; x00; x0b; x00; x09; x00; x10; x00; x05; x00; x03; x02; x68; x33].
Example c19_extensions_case : c_state c19_c = ClientWaitEncryptedExtensions /\
  says toy None c19_ee (HEncExt [EAlpn [[x68; x33]]]) /\ ~ ee_acceptable toy_client [EAlpn [[x68; x33]]].
Proof.
  split; [vm_compute; reflexivity|]. split; [vm_compute; reflexivity|].
  intros (_ & E & _). destruct (E _ eq_refl) as (p & Ep & I). injection Ep; intros <-. destruct I as [I|[I|[]]]; discriminate I.
Qed.

(* C22.  A client that answered a HelloRetryRequest accepts a second one, as
   long as it names the same cipher suite and the same group. *)
Definition retries (ms : list hmsg) : nat := length (filter is_retry ms).
Definition c22_hrr : bytes := [x02; x00; x00; x34; x03; x03] ++ retry_random ++
  [x00; x13; x03; x00; x00; x0c; x00; x2b; x00; x02; x03; x04; x00; x33; x00; x02; x00; x17].
Theorem c22_one_retry_partial C g c shares chash d random sid suite exts c' :
  aead_sized C -> hmac_sized C -> hash_sized C -> g_side g = Client -> reachable C g c ->
  c_state c = ClientWaitServerHello false shares chash ->
  says C None d (HServerHello true random sid suite exts) -> handle_content C CT_HANDSHAKE d c = (Ok tt, c') ->
  exists group key n, shares = [(group, key)] /\ ext_get KEY_SHARE exts = Some (EKeyShareRetry group) /\
    c_nc c = Some n /\ n_suite n = Some suite.
Proof. intros A B D E F. exact (second_retry C g c A B D E F shares chash d random sid suite exts c'). Qed.
Print Assumptions c22_one_retry_partial.

Theorem c22_one_retry_refuted : exists C g c, aead_sized C /\ hmac_sized C /\ hash_sized C /\ g_side g = Client /\
  reachable C g c /\ can_receive (c_state c) = true /\ retries (c_hs c) = 2%nat.
Proof.
  exists toy, toy_client, (run toy [OInit; ORecv (record CT_HANDSHAKE c22_hrr); ORecv (record CT_HANDSHAKE c22_hrr)] toy_c0).
  split; [exact toy_aead_sized|]. split; [exact toy_hmac_sized|]. split; [exact toy_hash_sized|].
  split; [reflexivity|]. split; [exists toy_c0; eexists; split; [exact toy_c0_created | reflexivity]|].
  split; vm_compute; reflexivity.
Qed.
Print Assumptions c22_one_retry_refuted.
