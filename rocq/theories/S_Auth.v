(* What a finished handshake must have established: the order of its messages,
   the transcript, the negotiated parameters and the peer's authentication. *)
From Verif Require Import Base Iana Crypto Config Ext Msg Cipher Kex Transcript Conn S_Utils S_Keys S_Ocsp.
Local Open Scope string_scope.
Local Open Scope list_scope.
Local Open Scope N_scope.

(* a handshake message: who sent it, its type, its bytes *)
Definition hmsg : Type := side * N * bytes.
Definition m_side (m : hmsg) : side := fst (fst m).
Definition m_type (m : hmsg) : N := snd (fst m).
Definition m_data (m : hmsg) : bytes := snd m.

(* RFC 8446 4.1.3: type, 3 bytes of length, 2 of version, then the random *)
Definition retry_random : bytes :=
  [xcf; x21; xad; x74; xe5; x9a; x61; x11; xbe; x1d; x8c; x02; x1e; x65; xb8; x91;
   xc2; xa2; x11; x16; x7a; xbb; x8c; x5e; x07; x9e; x09; xe2; xc8; xa8; x33; x9c].
Definition is_retry (m : hmsg) : bool :=
  (m_type m =? 2) && beqb (btake 32 (bdrop 6 (m_data m))) retry_random.

(* the messages after the hellos *)
Definition EE d : hmsg := (Server, ENCRYPTED_EXTENSIONS, d).
Definition CR d : hmsg := (Server, CERTIFICATE_REQUEST, d).
Definition Cert d : hmsg := (Server, CERTIFICATE, d).
Definition CV d : hmsg := (Server, CERTIFICATE_VERIFY, d).
Definition SFin d : hmsg := (Server, FINISHED, d).
Definition CFin d : hmsg := (Client, FINISHED, d).

(* --- order of the messages, RFC 8446 figure 1 and 4 --------------------- *)
Inductive token := TCH | THRR | TSH | TEE | TCR | TCert | TCV | TSFin | TCFin | TOther.
Definition token_of (m : hmsg) : token :=
  match m_side m with
  | Client => if m_type m =? 1 then TCH else if m_type m =? 20 then TCFin else TOther
  | Server =>
    if m_type m =? 2 then (if is_retry m then THRR else TSH)
    else if m_type m =? 8 then TEE else if m_type m =? 13 then TCR
    else if m_type m =? 11 then TCert else if m_type m =? 15 then TCV
    else if m_type m =? 20 then TSFin else TOther
  end.
(* the hellos of a handshake with [n] retries, and the whole of it without
   client authentication *)
Definition hello_word (n : nat) : list token := TCH :: concat (repeat [THRR; TCH] n).
Definition word (n : nat) (cr : bool) : list token :=
  hello_word n ++ [TSH; TEE] ++ (if cr then [TCR] else []) ++ [TCert; TCV; TSFin; TCFin].
Definition prefix {A} (a b : list A) : Prop := exists c, b = a ++ c.
Definition handshake_prefix (n : nat) (ms : list hmsg) : Prop :=
  exists cr, prefix (map token_of ms) (word n cr).

(* --- transcript, RFC 8446 4.4.1 ----------------------------------------- *)
Definition synthetic (h : hashalg) (digest : bytes) : bytes :=
  [xfe; x00; x00; Nb (digest_size h)] ++ digest.
Definition rfc_messages (C : crypto) (h : hashalg) (ms : list hmsg) : bytes :=
  match ms with
  | ch :: hrr :: rest =>
    if is_retry hrr
    then synthetic h (cr_hash C h (m_data ch)) ++ m_data hrr ++ concat (map m_data rest)
    else concat (map m_data ms)
  | _ => concat (map m_data ms)
  end.
Definition rfc_transcript (C : crypto) (h : hashalg) (ms : list hmsg) : bytes :=
  cr_hash C h (rfc_messages C h ms).

(* what the library hashes: [keep] tells whether the HelloRetryRequest itself
   is hashed, [hc] is the hash used for the first ClientHello *)
Definition heard_step (C : crypto) (h : hashalg) (keep : bool) (st : hashalg * bytes) (m : hmsg)
  : hashalg * bytes :=
  let (hc, acc) := st in
  if is_retry m then (h, synthetic h (cr_hash C hc acc) ++ (if keep then m_data m else []))
  else (hc, acc ++ m_data m).
Definition heard (C : crypto) (h hc : hashalg) (keep : bool) (ms : list hmsg) : bytes :=
  snd (fold_left (heard_step C h keep) ms (hc, [])).

Definition heard_hash (C : crypto) (h hc : hashalg) (keep : bool) (ms : list hmsg) : bytes :=
  cr_hash C h (heard C h hc keep ms).

(* --- what the messages say ---------------------------------------------- *)
Definition says (C : crypto) (ct : option N) (d : bytes) (h : hs) : Prop :=
  parse_content C (Some ct) CT_HANDSHAKE d = Ok (KHandshake h).

(* the ServerHello chose [suite] and [group], giving the secret [shared] *)
Definition hello_says (C : crypto) (g : config) (rng : N -> bytes) (d : bytes) (suite group : N) (shared : bytes) : Prop :=
  exists random sid exts pub j,
    says C None d (HServerHello false random sid suite exts) /\
    ext_get SUPPORTED_VERSIONS exts = Some (ESupVersionsResp 0x0304) /\
    ext_get KEY_SHARE exts = Some (EKeyShareResp group pub) /\
    kx_resume C group (rng j) pub = Ok shared /\
    In suite (g_suites g) /\ In group (g_groups g).

(* the EncryptedExtensions: nothing that was not offered, and the defaults
   when nothing is said *)
Definition ee_says (C : crypto) (g : config) (d : bytes) (n : nconfig) : Prop :=
  exists exts, says C None d (HEncExt exts) /\
    (match ext_get MAX_FRAGMENT_LENGTH exts with
     | None => n_mfl n = Some 16384
     | Some x => exists code, x = EMaxFragLen code /\ mfl_octets code = Some (g_mfl g) /\ n_mfl n = Some (g_mfl g)
     end) /\
    (match ext_get ALPN exts with
     | None => n_alpn n = Some None
     | Some x => exists p, x = EAlpn [p] /\ In p (g_alpn g) /\ n_alpn n = Some (Some p)
     end) /\
    (match ext_get CLIENT_CERTIFICATE_TYPE exts with
     | None => n_cct n = Some CT_X509
     | Some x => exists t, x = EClientCertTypeResp t /\ In t (certificate_types g) /\ n_cct n = Some t
     end) /\
    (match ext_get SERVER_CERTIFICATE_TYPE exts with
     | None => n_sct n = Some CT_X509
     | Some x => exists t, x = EServerCertTypeResp t /\ In t (peer_certificate_types g) /\ n_sct n = Some t
     end) /\
    (match ext_get HEARTBEAT exts with
     | None => n_send_hb n = Some false /\ n_echo_hb n = Some false
     | Some x => exists m, x = EHeartbeat m /\ n_send_hb n = Some (m =? 1) /\ n_echo_hb n = Some (g_echo g)
     end).

(* the Certificate, and the key it gives *)
Definition cert_says (C : crypto) (g : config) (host : option str) (service : bool) (d : bytes) (key : bytes) : Prop :=
  (exists ctx e rest, says C (Some CT_X509) d (HCert ctx (e :: rest)) /\ key = cr_cert_pubkey C (en_data e) /\
     (require_peer_auth g = true ->
      cr_verify_chain C (g_trust g) (g_depth g) (match host with Some [] => None | _ => host end)
        (en_data e) (map en_data rest) = Ok tt /\ statuses_ok C service (e :: rest))) \/
  (exists ctx e rest, says C (Some CT_RAW_PUBLIC_KEY) d (HCert ctx (e :: rest)) /\ key = en_data e /\
     require_peer_auth g = false).

(* the certificate or the key that the client keeps is the first of the
   Certificate message [d] *)
Definition holds (C : crypto) (g : config) (d : bytes) (n : nconfig) : Prop :=
  exists t ctx e rest, n_sct n = Some t /\ says C (Some t) d (HCert ctx (e :: rest)) /\
    (t = CT_X509 /\ n_peer_cert n = Some (en_data e) /\ n_peer_key n = None \/
     t = CT_RAW_PUBLIC_KEY /\ n_peer_key n = Some (en_data e) /\ require_peer_auth g = false).

(* RFC 8446 4.4.3 *)
Definition signed_content (sd : side) (th : bytes) : bytes :=
  repeat x20 64 ++ ascii_bytes (match sd with Client => "TLS 1.3, client CertificateVerify"
                                            | Server => "TLS 1.3, server CertificateVerify" end)
  ++ [x00] ++ th.
Definition cv_says (C : crypto) (g : config) (d : bytes) (key th : bytes) (alg : N) : Prop :=
  exists ct sig, says C ct d (HCertVerify alg sig) /\ In alg (g_sigalgs g) /\
    cr_sig_verify C alg key sig (signed_content Server th) = Ok tt.

(* RFC 8446 4.4.4: the Finished of [sd], [th] is the transcript before it *)
Definition finished_says (C : crypto) (h : hashalg) (sd : side) (shared th_sh th : bytes) (d : bytes) : Prop :=
  exists ct, says C ct d (HFinished (cr_hmac C h (finished_key C h (hs_traffic C h sd shared th_sh)) th)).

(* --- how far a client is ------------------------------------------------- *)
(* the server's parameters are accepted *)
Definition settled (s : state) : bool :=
  match s with
  | ClientWaitCertCr | ClientWaitCertificate _ | ClientWaitCertificateVerify _ _ | ClientWaitFinished _ _ | Connected => true
  | _ => false
  end.
(* the server's signature is accepted *)
Definition signed (s : state) : bool := match s with ClientWaitFinished _ _ | Connected => true | _ => false end.
(* the hash algorithm is known *)
Definition hashing (s : state) : bool := match s with ClientWaitEncryptedExtensions => true | s => settled s end.
(* neither closed nor failed *)
Definition running (s : state) : bool := match s with Closed _ _ | Failed => false | _ => true end.

(* --- what a client may accept -------------------------------------------- *)
Definition ee_acceptable (g : config) (exts : list ext) : Prop :=
  (forall x, ext_get MAX_FRAGMENT_LENGTH exts = Some x -> exists code, x = EMaxFragLen code /\ mfl_octets code = Some (g_mfl g)) /\
  (forall x, ext_get ALPN exts = Some x -> exists p, x = EAlpn [p] /\ In p (g_alpn g)) /\
  (forall x, ext_get CLIENT_CERTIFICATE_TYPE exts = Some x -> exists t, x = EClientCertTypeResp t /\ In t (certificate_types g)) /\
  (forall x, ext_get SERVER_CERTIFICATE_TYPE exts = Some x -> exists t, x = EServerCertTypeResp t /\ In t (peer_certificate_types g)).
Definition sh_acceptable (g : config) (suite : N) (exts : list ext) : Prop :=
  In suite (g_suites g) /\ ext_get SUPPORTED_VERSIONS exts = Some (ESupVersionsResp 0x0304) /\
  exists group pub, ext_get KEY_SHARE exts = Some (EKeyShareResp group pub) /\ In group (g_groups g).

(* fewer records sealed than the smallest limit of RFC 8446 5.5 *)
Definition few (c : conn) : Prop := N.of_nat (length (c_log c)) < 11863283.
