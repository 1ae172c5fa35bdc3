From Verif Require Import Base Iana Crypto Config Serial Ext Msg Cipher Kex Sig Ocsp Transcript Conn Toy P_Toy
  S_Utils S_Hist S_Conn S_Keys S_Ocsp S_Auth P_Base P_Ocsp P_Client P_Client2 T_Alert.

(* C36 *)
Theorem c36_valid C issuer req res until : validate_ocsp C issuer req res = Ok until -> ocsp_good C issuer req res until.
Proof. exact (validated C issuer req res until). Qed.
Print Assumptions c36_valid.
(* the two uses of it: a client that is connected, a server that staples *)
Theorem c36_client C g c :
  aead_sized C -> hmac_sized C -> hash_sized C -> g_side g = Client -> reachable C g c ->
  require_peer_auth g = true -> c_state c = Connected ->
  exists pre cd post ctx l, c_hs c = pre ++ Cert cd :: post /\ says C (Some CT_X509) cd (HCert ctx l) /\ l <> [] /\
    statuses_ok C (c_ocsp c) l.
Proof. exact (client_statuses C g c). Qed.
Print Assumptions c36_client.
Theorem c36_server C c l e der : server_certificate_list C c = Ok l -> In e l -> In (EOcspStatus der) (en_exts e) ->
  exists issuer rest url req until, l = e :: issuer :: rest /\ cr_ocsp_url C (en_data e) = Ok url /\
    cr_make_ocsp_req C (en_data e) (en_data issuer) = Ok req /\ cr_ocsp_fetch C url req = Ok der /\
    ocsp_good C (en_data issuer) req der until.
Proof. exact (certificate_checked C c l e der). Qed.
Print Assumptions c36_server.

(* a server that staples, a client that checks *)
Definition c36_issuer : bytes := ascii_bytes "The issuer"%string.
Definition c36_config : config :=
  mkConfig Server toy_suites [x25519; secp256r1] [ed25519; ed448] None None 5 []
    (Some toy_cert) None (Some [toy_cert; c36_issuer]) 16384 true [] [].
Definition c36_s0 : conn := get_ok (new_conn false c36_config None true (toy_rng 2 100) (toy_rng 2)).
Definition c36_s := run toy [OInit; ORecv (c_out toy_c1)] c36_s0.
Definition c36_c := run toy [OInit; ORecv (c_out c36_s); OFlush] toy_c0.
Definition c36_status (c : conn) : option bytes :=
  match nth_error (c_hs c) 3 with
  | Some (_, _, d) =>
    match parse_content toy (Some (Some CT_X509)) CT_HANDSHAKE d with
    | Ok (KHandshake (HCert _ (e :: _))) => match ext_get STATUS_REQUEST (en_exts e) with Some (EOcspStatus x) => Some x | _ => None end
    | _ => None
    end
  | None => None
  end.
Example c36_case : reachable toy toy_client c36_c /\ c_state c36_c = Connected /\ c36_status c36_c = Some c36_issuer.
Proof.
  split; [exists toy_c0; eexists; split; [exact toy_c0_created | reflexivity]|]. split; vm_compute; reflexivity.
Qed.
Example c36_case2 : validate_ocsp toy c36_issuer c36_issuer c36_issuer = Ok 100 /\
  validate_ocsp toy c36_issuer c36_issuer (x52 :: c36_issuer) = Err XValue /\
  validate_ocsp toy toy_cert c36_issuer c36_issuer = Err XValue.
Proof. split; [|split]; vm_compute; reflexivity. Qed.

(* C46.  Full statement: for every certificate.  Proved for those followed by
   their issuer; the last one is not checked. *)
Theorem c46_stapled_partial C g c :
  aead_sized C -> hmac_sized C -> hash_sized C -> g_side g = Client -> reachable C g c ->
  require_peer_auth g = true -> c_state c = Connected ->
  exists hs1 cd hs2 ctx l, c_hs c = hs1 ++ Cert cd :: hs2 /\ says C (Some CT_X509) cd (HCert ctx l) /\
    forall pre e i post der, l = pre ++ e :: i :: post -> ext_get STATUS_REQUEST (en_exts e) = Some (EOcspStatus der) ->
    exists rs, cr_load_ocsp_res C der = Ok rs /\ rs_good rs = true.
Proof. exact (stapled_good C g c). Qed.
Print Assumptions c46_stapled_partial.

(* the flight of a server whose only certificate is [e] *)
Definition c46_flight (e : centry) : M unit :=
  let d := bdrop 5 (c_out toy_c1) in
  match parse_content toy None CT_HANDSHAKE d with
  | Ok (KHandshake (HClientHello random sid suites exts)) =>
    transcribe d Client CLIENT_HELLO ;;
    server_setup random suites ;;
    do (clear, enc, shared) <- server_negociate toy exts;
    match shared with
    | None => raise XValue
    | Some key =>
      server_send_hello toy true sid clear enc key ;;
      send_content toy (KHandshake (HCert [] [e])) ;;
      do h <- digest toy;
      do sg <- lift (cr_sign toy ed25519 toy_cert (certificate_verify_server ++ h));
      send_content toy (KHandshake (HCertVerify ed25519 sg)) ;;
      do h <- digest toy;
      do f <- ask_cipher (fun x => sign_finish toy h x);
      send_content toy (KHandshake (HFinished f))
    end
  | _ => raise XValue
  end.
Definition c46_s := snd (c46_flight (mkEntry CT_X509 toy_cert [EOcspStatus [x52]]) toy_s1).
Definition c46_c := run toy [OInit; ORecv (c_out c46_s); OFlush] toy_c0.
Definition c46_cert : bytes := match nth_error (c_hs c46_c) 3 with Some (_, _, d) => d | None => [] end.
Theorem c46_stapled_refuted : exists C g c hs1 cd hs2 ctx e der rs, aead_sized C /\ g_side g = Client /\ reachable C g c /\
  require_peer_auth g = true /\ c_state c = Connected /\
  c_hs c = hs1 ++ Cert cd :: hs2 /\ says C (Some CT_X509) cd (HCert ctx [e]) /\
  ext_get STATUS_REQUEST (en_exts e) = Some (EOcspStatus der) /\ cr_load_ocsp_res C der = Ok rs /\ rs_good rs = false.
Proof.
  exists toy, toy_client, c46_c, (firstn 3 (c_hs c46_c)), c46_cert, (skipn 4 (c_hs c46_c)), [], (mkEntry CT_X509 toy_cert [EOcspStatus [x52]]), [x52].
  eexists. split; [exact toy_aead_sized|]. split; [reflexivity|].
  split; [exists toy_c0; eexists; split; [exact toy_c0_created | reflexivity]|].
  split; [reflexivity|]. split; [vm_compute; reflexivity|].
  split; [vm_compute; reflexivity|]. split; [vm_compute; reflexivity|]. split; [reflexivity|]. split; reflexivity.
Qed.
Print Assumptions c46_stapled_refuted.
