(* A client does not look at the other extensions; witnesses for C65. *)
From Verif Require Import Base P_Base Iana Crypto Config Serial Ext Msg Cipher Kex Conn S_Hist S_Conn S_Send S_Nonce S_Pack S_Split P_Monad P_Rec Toy P_Toy P_PackToy.

Lemma get_more ty l m : Forall (fun e => ext_type e <> ty) m -> ext_get ty (l ++ m) = ext_get ty l.
Proof.
  intro F. unfold ext_get. induction l as [|e l IH]; cbn.
  - induction F as [|e m Ne F IH]; [reflexivity|]. cbn. apply N.eqb_neq in Ne. rewrite Ne. exact IH.
  - destruct (ext_type e =? ty); [reflexivity | exact IH].
Qed.
Lemma get_other ty ts l m : In ty ts -> Forall (fun e => ~ In (ext_type e) ts) m -> ext_get ty (l ++ m) = ext_get ty l.
Proof. intros I F. apply get_more. eapply Forall_impl; [|exact F]. intros e N <-. contradiction. Qed.
Lemma ee_unread C c exts more : c_state c = ClientWaitEncryptedExtensions ->
  Forall (fun e => ~ In (ext_type e) [MAX_FRAGMENT_LENGTH; ALPN; HEARTBEAT; CLIENT_CERTIFICATE_TYPE; SERVER_CERTIFICATE_TYPE]) more ->
  process C (KHandshake (HEncExt (exts ++ more))) c = process C (KHandshake (HEncExt exts)) c.
Proof.
  intros Es F. unfold process. rewrite !bind_get, Es. unfold process_wait_ee, client_neg_mfl, client_neg_alpn, client_neg_heartbeat, client_neg_cct, client_neg_sct.
  rewrite !(fun ty I => get_other ty _ exts more I F) by (cbn [In]; tauto). reflexivity.
Qed.
Lemma sh_unread C c first shares chash hrr random sid suite exts more : c_state c = ClientWaitServerHello first shares chash ->
  Forall (fun e => ~ In (ext_type e) (if hrr : bool then [KEY_SHARE; COOKIE] else [SUPPORTED_VERSIONS; KEY_SHARE])) more ->
  process C (KHandshake (HServerHello hrr random sid suite (exts ++ more))) c = process C (KHandshake (HServerHello hrr random sid suite exts)) c.
Proof.
  intros Es F. unfold process. rewrite !bind_get, Es. unfold process_wait_sh.
  destruct hrr; unfold client_process_hrr, client_process_sh, client_negociate_hello; rewrite !(fun ty I => get_other ty _ exts more I F) by (cbn [In]; tauto); reflexivity.
Qed.

Definition ser_or (h : hs) : bytes := match ser_content toy (KHandshake h) with Ok d => d | Err _ => [] end.
Definition an_exts : list ext := [ESupVersionsReq [772]; ESigAlgs [ed25519]; ESupportedGroups [x25519]].
Definition an_hello : bytes := ser_or (HClientHello (be_bytes 32 7) [] toy_suites an_exts).
Definition an_s := run toy [OInit; ORecv (record CT_HANDSHAKE an_hello)] toy_s0.
Definition an_retry : bytes := ser_or (HServerHello true hrr_random [] (hd 0 toy_suites) [ESupVersionsResp 772; EKeyShareRetry x25519]).
Lemma an_s_reachable : reachable toy toy_server an_s.
Proof. exists toy_s0; eexists; split; [exact toy_s0_created | reflexivity]. Qed.
Definition an_t := run toy [OInit; ORecv (c_out toy_c1)] toy_s0.
Lemma an_reachable : reachable toy toy_server an_t.
Proof. exists toy_s0; eexists; split; [exact toy_s0_created | reflexivity]. Qed.
Definition an_ee : bytes := [x08; x00; x00; x07; x00; x05; x00; x14; x00; x01; x00].
Definition an_wire : bytes := record CT_APPDATA (pk_seal pk_c 0 CT_HANDSHAKE an_ee) ++ [].
Definition an_ch : bytes := match c_hs pk_c with (_, _, d) :: _ => d | [] => [] end.
Definition an_random (d : bytes) : bytes := match parse_content toy None CT_HANDSHAKE d with Ok (KHandshake (HClientHello r _ _ _)) => r | _ => [] end.
Definition an_offer (d : bytes) : list ext := match parse_content toy None CT_HANDSHAKE d with Ok (KHandshake (HClientHello _ _ _ e)) => e | _ => [] end.
