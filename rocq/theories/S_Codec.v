(* Specifications for C30, C31 and C32: which messages are well formed. *)
From Verif Require Import Base Iana Crypto Ext Msg.

(* RFC 8446 section 4.2: the extensions and the messages in which each may
   appear (and RFC 6066, 5764, 7301, 7250, 7685 for their own extensions) *)
Definition rfc_places : list (N * list hname) :=
  [(SERVER_NAME, [NClientHello; NEncryptedExt]);
   (MAX_FRAGMENT_LENGTH, [NClientHello; NEncryptedExt]);
   (STATUS_REQUEST, [NClientHello; NCertRequest; NCertificate]);
   (SUPPORTED_GROUPS, [NClientHello; NEncryptedExt]);
   (SIGNATURE_ALGORITHMS, [NClientHello; NCertRequest]);
   (USE_SRTP, [NClientHello; NEncryptedExt]);
   (HEARTBEAT, [NClientHello; NEncryptedExt]);
   (ALPN, [NClientHello; NEncryptedExt]);
   (SIGNED_CERTIFICATE_TIMESTAMP, [NClientHello; NCertRequest; NCertificate]);
   (CLIENT_CERTIFICATE_TYPE, [NClientHello; NEncryptedExt]);
   (SERVER_CERTIFICATE_TYPE, [NClientHello; NEncryptedExt]);
   (PADDING, [NClientHello]);
   (KEY_SHARE, [NClientHello; NServerHello; NHelloRetry]);
   (PRE_SHARED_KEY, [NClientHello; NServerHello]);
   (PSK_KEY_EXCHANGE_MODES, [NClientHello]);
   (EARLY_DATA, [NClientHello; NEncryptedExt; NNewSession]);
   (COOKIE, [NClientHello; NHelloRetry]);
   (SUPPORTED_VERSIONS, [NClientHello; NServerHello; NHelloRetry]);
   (CERTIFICATE_AUTHORITIES, [NClientHello; NCertRequest]);
   (OID_FILTERS, [NCertRequest]);
   (POST_HANDSHAKE_AUTH, [NClientHello]);
   (SIGNATURE_ALGORITHMS_CERT, [NClientHello; NCertRequest])].
(* the table has nothing against type [ty] in message [h] *)
Definition rfc_allows (ty : N) (h : hname) : Prop := forall l, In (ty, l) rfc_places -> In h l.

(* the messages in which an extension object may stand; None: its type is not
   one of the table *)
Definition home (e : ext) : option (list hname) :=
  match e with
  | EServerNameReq _ => Some [NClientHello]
  | EServerNameResp => Some [NEncryptedExt]
  | EMaxFragLen _ | ESupportedGroups _ | EHeartbeat _ | EAlpn _ => Some [NClientHello; NEncryptedExt]
  | EStatusReq _ _ => Some [NClientHello; NCertRequest]
  | EOcspStatus _ => Some [NCertificate]
  | ESigAlgs _ | ESigAlgsCert _ => Some [NClientHello; NCertRequest]
  | ESct => Some [NClientHello; NCertRequest; NCertificate]
  | EClientCertTypeReq _ | EServerCertTypeReq _ => Some [NClientHello]
  | EClientCertTypeResp _ | EServerCertTypeResp _ => Some [NEncryptedExt]
  | EPadding _ | EPskReq _ _ | EPskModes _ | EPostHandshakeAuth => Some [NClientHello]
  | EPskResp _ => Some [NServerHello]
  | EEarlyData => Some [NClientHello; NEncryptedExt]
  | ENewSessionEarlyData _ => Some [NNewSession]
  | ESupVersionsReq _ | EKeyShareReq _ => Some [NClientHello]
  | ESupVersionsResp _ => Some [NServerHello; NHelloRetry]
  | ECookie _ => Some [NClientHello; NHelloRetry]
  | EOidFilters _ => Some [NCertRequest]
  | EKeyShareRetry _ => Some [NHelloRetry]
  | EKeyShareResp _ _ => Some [NServerHello]
  | EUnknown _ _ => None
  end.

(* the host name is one that IDNA encodes as it is *)
Definition plain_host (C : crypto) (h : str) : Prop :=
  exists b, cr_idna_encode C h = Ok b /\ cr_idna_decode C b = Ok h /\ blen b = str_len h.
(* a client's host name: none, an address, or a plain one *)
Definition host_fine (C : crypto) (host : option str) : Prop :=
  match host with Some h => h <> [] -> cr_is_ip C h = false -> plain_host C h | None => True end.
(* the values an extension may carry, besides those that fit no field *)
Definition sound (C : crypto) (e : ext) : Prop :=
  match e with
  | EServerNameReq (Some h) => plain_host C h
  | EMaxFragLen c => In c [1; 2; 3; 4]
  | EHeartbeat m => In m [1; 2]
  | EAlpn l => Forall (fun p => Forall (fun c => 32 <= bN c <= 126) p) l
  | ESupVersionsResp v => v = TLS_1_3
  | EKeyShareReq l => NoDup (map fst l)
  | EKeyShareRetry g => In g named_groups
  | EPskReq _ _ => False                 (* cannot be serialized but for empty lists *)
  | _ => True
  end.
Definition ext_ok (C : crypto) (h : hname) (e : ext) : Prop :=
  sound C e /\
  match home e with Some l => In h l | None => ~ In (ext_type e) (map fst rfc_places) end.
Definition exts_ok (C : crypto) (h : hname) (l : list ext) : Prop :=
  NoDup (map ext_type l) /\ Forall (ext_ok C h) l.

(* certificates and keys are represented by their encoding: loading one that
   was dumped gives it back *)
Definition entry_ok (C : crypto) (ct : N) (e : centry) : Prop :=
  en_type e = ct /\
  (if ct =? CT_X509 then cr_load_cert C (en_data e) else cr_load_pubkey C (en_data e)) = Ok (en_data e) /\
  exts_ok C NCertificate (en_exts e).

Definition message_ok (C : crypto) (pct : option (option N)) (h : hs) : Prop :=
  match h with
  | HClientHello random _ suites exts => blen random = 32 /\ suites <> [] /\ exts_ok C NClientHello exts
  | HServerHello hrr random _ _ exts =>
    blen random = 32 /\ (hrr = true <-> random = hrr_random) /\
    exts_ok C (if hrr then NHelloRetry else NServerHello) exts
  | HEncExt exts => exts_ok C NEncryptedExt exts
  | HCertReq _ exts => exts_ok C NCertRequest exts /\ exists l, In (ESigAlgs l) exts
  | HCert _ l => exists ct, pct = Some (Some ct) /\ (ct = CT_X509 \/ ct = CT_RAW_PUBLIC_KEY) /\ Forall (entry_ok C ct) l
  | HCertVerify _ _ | HFinished _ => True
  | HNone => False
  end.
Definition content_ok (C : crypto) (pct : option (option N)) (k : content) : Prop :=
  match k with
  | KCcs => True
  | KAlert level desc => (level = WARNING \/ level = FATAL) /\ desc < 256
  | KHandshake h => message_ok C pct h
  | KAppData _ => True
  | KHeartbeat _ _ _ => False            (* no serialization exists *)
  end.
