(* C30: messages survive serialization. *)
From Verif Require Import Base Iana Serial Crypto Ext Msg Config Conn S_Codec P_Codec Toy.

(* Every well formed message (and alert, change_cipher_spec, application
   data) that can be serialized is read back as the same message, the end of
   the bytes being reached. *)
Theorem c30_roundtrip : forall C pct k b,
  content_ok C pct k -> ser_content C k = Ok b -> parse_content C pct (content_type k) b = Ok k.
Proof. exact content_roundtrip. Qed.
Print Assumptions c30_roundtrip.

(* A handshake message followed by anything: exactly its own bytes are read. *)
Theorem c30_message : forall C pct h b post,
  message_ok C pct h -> ser_hs C h = Ok b ->
  parse_hs C pct (stream_of (b ++ post)) = Ok (h, mkStream (b ++ post) (blen b) []).
Proof. intros C pct h b post K H. exact (hs_roundtrip C pct h b K H (stream_of (b ++ post)) post eq_refl I). Qed.
Print Assumptions c30_message.

(* The ClientHello this library builds is well formed: for every
   configuration whose ALPN names are printable, every cookie and every key
   share, with a host name that IDNA leaves as long as it is. *)
Theorem c30_client_hello : forall C pct g host cookie share unique ch b,
  Forall (Forall (fun c => 32 <= bN c <= 126)) (g_alpn g) -> host_fine C host ->
  mk_client_hello unique (g_suites g) (client_extensions C g host cookie share) = Ok ch ->
  ser_content C (KHandshake ch) = Ok b ->
  parse_content C pct CT_HANDSHAKE b = Ok (KHandshake ch).
Proof.
  intros C pct g host cookie share unique ch b Ha Hh Hm Hs.
  exact (content_roundtrip C pct (KHandshake ch) b (client_hello_ok C pct g host cookie share unique ch Ha Hh Hm) Hs).
Qed.
Print Assumptions c30_client_hello.

(* The conditions cannot be dropped.  A host name that is longer once encoded
   by IDNA: the length sent is that of the name before encoding, and the
   ClientHello of the library cannot be read. *)
Definition c30_idna : crypto := {|
  cr_hash := cr_hash toy; cr_hmac := cr_hmac toy; cr_seal := cr_seal toy; cr_open := cr_open toy;
  cr_kx_pub := cr_kx_pub toy; cr_kx_shared := cr_kx_shared toy; cr_sign := cr_sign toy;
  cr_sig_verify := cr_sig_verify toy; cr_load_cert := cr_load_cert toy; cr_load_pubkey := cr_load_pubkey toy;
  cr_cert_pubkey := cr_cert_pubkey toy; cr_cert_pubkey_oid := cr_cert_pubkey_oid toy;
  cr_cert_sig_oid := cr_cert_sig_oid toy; cr_cert_hash_alg := cr_cert_hash_alg toy;
  cr_verify_chain := cr_verify_chain toy; cr_is_ip := cr_is_ip toy;
  (* U+00E9 is encoded as xn--9ca, and back *)
  cr_idna_decode := fun b => if beqb b (ascii_bytes "xn--9ca"%string) then Ok [xc3; xa9] else Ok b;
  cr_idna_encode := fun h => if beqb h [xc3; xa9] then Ok (ascii_bytes "xn--9ca"%string) else Ok h;
  cr_load_ocsp_req := cr_load_ocsp_req toy; cr_load_ocsp_res := cr_load_ocsp_res toy;
  cr_ocsp_url := cr_ocsp_url toy; cr_make_ocsp_req := cr_make_ocsp_req toy; cr_ocsp_fetch := cr_ocsp_fetch toy;
  cr_now := cr_now toy; cr_sig_args := cr_sig_args toy |}.
Theorem c30_idna_refuted : exists C g h share unique ch b,
  (exists e, cr_idna_encode C h = Ok e /\ cr_idna_decode C e = Ok h) /\
  mk_client_hello unique (g_suites g) (client_extensions C g (Some h) None share) = Ok ch /\
  ser_content C (KHandshake ch) = Ok b /\
  parse_content C None CT_HANDSHAKE b = Err (XAlert UNRECOGNIZED_NAME).
Proof.
  exists c30_idna, toy_client, [xc3; xa9], (x25519, be_bytes 32 1), (be_bytes 32 5).
  eexists. eexists. split; [|split; [|split]]; [exists (ascii_bytes "xn--9ca"%string); split; reflexivity | vm_compute; reflexivity..].
Qed.
Print Assumptions c30_idna_refuted.

(* An ALPN name that is not printable is dropped when read. *)
Theorem c30_alpn_refuted : exists e b,
  ser_ext toy e = Ok b /\
  match parse_ext toy NClientHello (stream_of b) with Ok (e', _) => e' <> e | Err _ => True end.
Proof.
  exists (EAlpn [[x01]]). eexists. split; [vm_compute; reflexivity|]. vm_compute. discriminate.
Qed.
Print Assumptions c30_alpn_refuted.

(* A pre_shared_key extension (never sent by the library) with identities
   cannot be serialized, and its binders lose their lengths. *)
Theorem c30_psk_refuted :
  (forall C i l bs, ser_ext C (EPskReq (i :: l) bs) = Err XAttr) /\
  exists e b, ser_ext toy e = Ok b /\
    match parse_ext toy NClientHello (stream_of b) with Ok (e', _) => e' <> e | Err _ => True end.
Proof.
  split; [reflexivity|]. exists (EPskReq [] [[x00]]). eexists. split; [vm_compute; reflexivity|]. vm_compute. discriminate.
Qed.
Print Assumptions c30_psk_refuted.

(* the hypotheses are met: the toy client's hello, and one of each other
   message *)
Definition c30_reads (k : content) : bool :=
  match ser_content toy k with
  | Ok b => match parse_content toy (Some (Some CT_X509)) (content_type k) b with Ok _ => true | Err _ => false end
  | Err _ => false
  end.
Definition c30_contents : list content :=
  [KHandshake (HServerHello false (be_bytes 32 3) [x01] TLS_AES_128_GCM_SHA256
     [ESupVersionsResp TLS_1_3; EKeyShareResp x25519 (be_bytes 32 7)]);
   KHandshake (HServerHello true hrr_random [] TLS_AES_128_GCM_SHA256
     [ESupVersionsResp TLS_1_3; EKeyShareRetry secp256r1; ECookie [x01]]);
   KHandshake (HEncExt [EAlpn [ascii_bytes "h2"%string]; EMaxFragLen 2; EUnknown 4660 [x01; x02]]);
   KHandshake (HCertReq [] [ESigAlgs [ed25519]; EOidFilters [([x01], [x02; x03])]]);
   KHandshake (HCert [x09] [mkEntry CT_X509 toy_cert [EOcspStatus [x05]]; mkEntry CT_X509 [x01] []]);
   KHandshake (HCertVerify ed25519 [x01; x02]); KHandshake (HFinished (be_bytes 32 9));
   KAlert FATAL DECODE_ERROR; KCcs; KAppData [x01; x02]].
Example c30_ex : Forall (content_ok toy (Some (Some CT_X509))) c30_contents /\ forallb c30_reads c30_contents = true.
Proof.
  split; [|vm_compute; reflexivity].
  repeat match goal with
  | |- Forall _ _ => constructor
  end; cbn [content_ok message_ok]; try exact I.
  - repeat split; try discriminate; repeat constructor; cbn; try tauto; try discriminate;
      intro X; repeat (destruct X as [X|X]; [discriminate X|]); destruct X.
  - repeat split; try discriminate; repeat constructor; cbn; try tauto; try discriminate;
      intro X; repeat (destruct X as [X|X]; [discriminate X|]); destruct X.
  - repeat split; repeat constructor; cbn; try tauto; try discriminate; try (vm_compute; discriminate);
      intro X; vm_compute in X; repeat (destruct X as [X|X]; [discriminate X|]); destruct X.
  - split; [|exists [ed25519]; left; reflexivity]. repeat split; repeat constructor; cbn; try tauto;
      intro X; repeat (destruct X as [X|X]; [discriminate X|]); destruct X.
  - exists CT_X509. split; [reflexivity|]. split; [left; reflexivity|].
    repeat split; repeat constructor; cbn; try tauto;
      intro X; repeat (destruct X as [X|X]; [discriminate X|]); destruct X.
  - split; [right; reflexivity | reflexivity].
Qed.
Example c30_hello_ex : exists ch b,
  mk_client_hello (be_bytes 32 5) (g_suites toy_client)
    (client_extensions toy toy_client (Some (ascii_bytes "example.org"%string)) None (x25519, be_bytes 32 1)) = Ok ch /\
  ser_content toy (KHandshake ch) = Ok b /\ host_fine toy (Some (ascii_bytes "example.org"%string)) /\
  Forall (Forall (fun c => 32 <= bN c <= 126)) (g_alpn toy_client).
Proof.
  eexists. eexists. split; [vm_compute; reflexivity|]. split; [vm_compute; reflexivity|]. split.
  - intros _ _. exists (ascii_bytes "example.org"%string). repeat split.
  - repeat constructor; vm_compute; discriminate.
Qed.
