(* C65 *)
From Verif Require Import Base P_Base Iana Crypto Config Serial Ext Msg Cipher Conn S_Hist S_Conn S_Auth S_Send S_Nonce S_Pack S_Split S_Answer P_Rec P_Answer P_Answer2 Toy P_Toy P_PackToy.

(* C65.  Full statement: no message answers an extension that the last
   ClientHello does not offer, and the client refuses one that does.  Of a
   server, but for the key_share of a HelloRetryRequest. *)
Theorem c65_server_partial : forall C g c, reachable C g c -> g_side g = Server -> exists o, answered C shares (c_hs c) o.
Proof. exact server_answers. Qed.
Print Assumptions c65_server_partial.
(* a handshake with three answers: ServerHello, EncryptedExtensions, Certificate *)
Example c65_case : reachable toy toy_server an_t /\ map (fun e => (fst (fst e), snd (fst e))) (c_hs an_t) =
    [(Client, CLIENT_HELLO); (Server, SERVER_HELLO); (Server, ENCRYPTED_EXTENSIONS); (Server, CERTIFICATE); (Server, CERTIFICATE_VERIFY); (Server, FINISHED)] /\
  match parse_content toy None CT_HANDSHAKE pk_a with Ok (KHandshake h) => responses h = [ALPN; HEARTBEAT] | _ => False end.
Proof. split; [exact an_reachable | split; vm_compute; reflexivity]. Qed.

(* a ClientHello without key_share *)
Theorem c65_retry_refuted : exists C g c d random sid suites exts d' random' suite' exts', reachable C g c /\ g_side g = Server /\
  c_hs c = [(Client, CLIENT_HELLO, d); (Server, SERVER_HELLO, d')] /\
  says C None d (HClientHello random sid suites exts) /\ says C None d' (HServerHello true random' sid suite' exts') /\
  In KEY_SHARE (map ext_type exts') /\ ~ In KEY_SHARE (map ext_type exts).
Proof.
  exists toy, toy_server, an_s, an_hello, (be_bytes 32 7), [], toy_suites, an_exts, an_retry, hrr_random, (hd 0 toy_suites), [ESupVersionsResp 772; EKeyShareRetry x25519].
  split; [exact an_s_reachable|]. split; [reflexivity|]. split; [vm_compute; reflexivity|]. split; [vm_compute; reflexivity|]. split; [vm_compute; reflexivity|].
  split; [vm_compute; tauto | vm_compute; intuition discriminate].
Qed.
Print Assumptions c65_retry_refuted.

(* the client: extensions of other types than these do not change anything *)
Theorem c65_client_unread : forall C c exts more, c_state c = ClientWaitEncryptedExtensions ->
  Forall (fun e => ~ In (ext_type e) [MAX_FRAGMENT_LENGTH; ALPN; HEARTBEAT; CLIENT_CERTIFICATE_TYPE; SERVER_CERTIFICATE_TYPE]) more ->
  process C (KHandshake (HEncExt (exts ++ more))) c = process C (KHandshake (HEncExt exts)) c.
Proof. exact ee_unread. Qed.
Print Assumptions c65_client_unread.
Theorem c65_hello_unread : forall C c first shares chash hrr random sid suite exts more, c_state c = ClientWaitServerHello first shares chash ->
  Forall (fun e => ~ In (ext_type e) (if hrr : bool then [KEY_SHARE; COOKIE] else [SUPPORTED_VERSIONS; KEY_SHARE])) more ->
  process C (KHandshake (HServerHello hrr random sid suite (exts ++ more))) c = process C (KHandshake (HServerHello hrr random sid suite exts)) c.
Proof. exact sh_unread. Qed.
Print Assumptions c65_hello_unread.
Example c65_unread_case : c_state pk_c = ClientWaitEncryptedExtensions /\
  match c_state (run toy [OInit] toy_c0) with ClientWaitServerHello _ _ _ => True | _ => False end /\
  ~ In (ext_type EServerNameResp) [MAX_FRAGMENT_LENGTH; ALPN; HEARTBEAT; CLIENT_CERTIFICATE_TYPE; SERVER_CERTIFICATE_TYPE] /\
  fst (process toy (KHandshake (HEncExt ([EAlpn [ascii_bytes "h2"%string]] ++ [EServerNameResp]))) pk_c) = Ok tt.
Proof. split; [vm_compute; reflexivity|]. split; [exact I|]. split; [vm_compute; intuition discriminate | vm_compute; reflexivity]. Qed.
(* and one of these types is accepted unasked *)
Theorem c65_client_refuted : exists C g c b d rest random sid suites exts t, reachable C g c /\ c_state c = ClientWaitEncryptedExtensions /\
  c_hs c = (Client, CLIENT_HELLO, d) :: rest /\ length rest = 1%nat /\ says C None d (HClientHello random sid suites exts) /\
  packed C c 0 [(CT_HANDSHAKE, t)] b /\ says C None t (HEncExt [EServerCertTypeResp CT_X509]) /\
  ~ In SERVER_CERTIFICATE_TYPE (map ext_type exts) /\
  fst (receive_data C b c) = Ok tt /\ c_state (snd (receive_data C b c)) = ClientWaitCertCr.
Proof.
  exists toy, toy_client, pk_c, an_wire, an_ch, (tl (c_hs pk_c)), (an_random an_ch), [], toy_suites, (an_offer an_ch), an_ee.
  split; [exact pk_reachable|]. split; [vm_compute; reflexivity|]. split; [vm_compute; reflexivity|]. split; [vm_compute; reflexivity|].
  split; [vm_compute; reflexivity|]. split; [apply pk_packed; [vm_compute; reflexivity | constructor]|]. split; [vm_compute; reflexivity|].
  split; [vm_compute; intuition discriminate|]. split; vm_compute; reflexivity.
Qed.
Print Assumptions c65_client_refuted.
