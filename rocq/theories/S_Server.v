(* What a server must choose among what a ClientHello offers. *)
From Verif Require Import Base Iana Crypto Config Ext Msg Kex Sig Conn S_Hist S_Utils S_Auth.

(* [x] is the first of [l], in the order of [l], that is [ok] *)
Definition prefers {A} (ok : A -> Prop) (l : list A) (x : A) : Prop :=
  exists a b, l = a ++ x :: b /\ ok x /\ forall y, In y a -> ~ ok y.

(* RFC 8446 4.2.3: the schemes a kind of key can sign with *)
Definition schemes_of_key (oid : N) : list N :=
  if oid =? PK_RSAES_PKCS1 then [0x0401; 0x0501; 0x0601; 0x0804; 0x0805; 0x0806]
  else if oid =? PK_RSASSA_PSS then [0x0809; 0x080a; 0x080b]
  else if oid =? PK_EC then [0x0403; 0x0503; 0x0603]
  else if oid =? PK_ED25519 then [0x0807]
  else if oid =? PK_ED448 then [0x0808]
  else [].

(* the parameters chosen for the hello [d], from the lists of our own *)
Definition picks (C : crypto) (suites0 groups0 algs0 : list N) (chain : option (list bytes)) (d random : bytes)
  (suite group sg : N) : Prop :=
  exists sid suites exts versions groups algs cert rest,
    says C None d (HClientHello random sid suites exts) /\
    prefers (fun x => In x suites) suites0 suite /\
    ext_get SUPPORTED_VERSIONS exts = Some (ESupVersionsReq versions) /\ In 0x0304 versions /\
    ext_get SUPPORTED_GROUPS exts = Some (ESupportedGroups groups) /\
    prefers (fun x => In x groups) groups0 group /\
    ext_get SIGNATURE_ALGORITHMS exts = Some (ESigAlgs algs) /\ chain = Some (cert :: rest) /\
    prefers (fun x => In x (schemes_of_key (cr_cert_pubkey_oid C cert)) /\ In x algs) algs0 sg.

(* the secret shared with the hello [d] *)
Definition shares (C : crypto) (rng : N -> bytes) (d : bytes) (group : N) (pub shared : bytes) : Prop :=
  exists random sid suites exts l peer j,
    says C None d (HClientHello random sid suites exts) /\
    ext_get KEY_SHARE exts = Some (EKeyShareReq l) /\ In (group, peer) l /\
    kx_init C group (rng j) = Ok pub /\ kx_resume C group (rng j) peer = Ok shared.

(* the other parameters, and the extensions that tell them *)
Definition cct_pick (g : config) (exts : list ext) (v : option N) (e : list ext) : Prop :=
  if require_peer_auth g then
    exists t theirs, v = Some t /\ prefers (fun y => In y theirs) (peer_certificate_types g) t /\
      match ext_get CLIENT_CERTIFICATE_TYPE exts with
      | None => theirs = [CT_X509] /\ e = []
      | Some x => x = EClientCertTypeReq theirs /\ e = [EClientCertTypeResp t]
      end
  else e = [].
Definition sct_pick (g : config) (exts : list ext) (v : option N) (e : list ext) : Prop :=
  exists t theirs, v = Some t /\ prefers (fun y => In y theirs) (certificate_types g) t /\
    match ext_get SERVER_CERTIFICATE_TYPE exts with
    | None => theirs = [CT_X509] /\ e = []
    | Some x => x = EServerCertTypeReq theirs /\ e = [EServerCertTypeResp t]
    end.
Definition mfl_pick (g : config) (exts : list ext) (v : option N) (e : list ext) : Prop :=
  match ext_get MAX_FRAGMENT_LENGTH exts with
  | None => v = Some (g_mfl g) /\ e = []
  | Some x => exists code o, x = EMaxFragLen code /\ mfl_octets code = Some o /\ v = Some o /\ e = [EMaxFragLen code]
  end.
Definition alpn_pick (g : config) (exts : list ext) (v : option (option str)) (e : list ext) : Prop :=
  match ext_get ALPN exts with
  | None => v = Some None /\ e = []
  | Some x => exists l, x = EAlpn l /\
      (g_alpn g = [] /\ v = Some None /\ e = [] \/
       exists p, prefers (fun y => In y l) (g_alpn g) p /\ v = Some (Some p) /\ e = [EAlpn [p]])
  end.
(* one may send heartbeats when the other one echoes them; 1 is
   peer_allowed_to_send, 2 is peer_not_allowed_to_send *)
Definition hb_pick (g : config) (exts : list ext) (send echo : option bool) (e : list ext) : Prop :=
  match ext_get HEARTBEAT exts with
  | None => send = Some false /\ echo = Some false /\ e = []
  | Some x => exists m, x = EHeartbeat m /\ send = Some (m =? 1) /\ echo = Some (g_echo g) /\
      e = [EHeartbeat (if g_echo g then 1 else 2)]
  end.
Definition settles (C : crypto) (g : config) (d : bytes) (nc : nconfig) (enc : list ext) : Prop :=
  exists random sid suites exts e1 e2 e3 e4 e5,
    says C None d (HClientHello random sid suites exts) /\ enc = e1 ++ e2 ++ e3 ++ e4 ++ e5 /\
    cct_pick g exts (n_cct nc) e1 /\ sct_pick g exts (n_sct nc) e2 /\ mfl_pick g exts (n_mfl nc) e3 /\
    alpn_pick g exts (n_alpn nc) e4 /\ hb_pick g exts (n_send_hb nc) (n_echo_hb nc) e5 /\
    n_want_ocsp nc = Some (opt_bool (ext_get STATUS_REQUEST exts)).

(* the entries of the Certificate of a server: its raw key or its chain *)
Definition presents (g : config) (n : nconfig) (l : list centry) : Prop :=
  (n_sct n = Some CT_RAW_PUBLIC_KEY /\ exists key, g_public g = Some key /\ l = [mkEntry CT_RAW_PUBLIC_KEY key []]) \/
  (n_sct n <> Some CT_RAW_PUBLIC_KEY /\ exists chain, g_chain g = Some chain /\ map en_data l = chain /\
     Forall (fun e => en_type e = CT_X509 /\ (en_exts e = [] \/ exists der, en_exts e = [EOcspStatus der])) l).

(* a HelloRetryRequest of ours *)
Definition asks_again (C : crypto) (d : bytes) (suite : N) : Prop :=
  is_retry (Server, SERVER_HELLO, d) = true /\
  exists sid exts, ser_content C (KHandshake (HServerHello true retry_random sid suite exts)) = Ok d.
(* the hellos of a handshake whose parameters are chosen: with a retry, the
   second hello was held to the parameters chosen for the first *)
Definition hellos (C : crypto) (g : config) (ms : list hmsg) (dn : bytes) (suite group sg : N) : Prop :=
  (exists random, ms = [(Client, CLIENT_HELLO, dn)] /\
     picks C (g_suites g) (g_groups g) (g_sigalgs g) (g_chain g) dn random suite group sg) \/
  (exists d0 dr random, ms = [(Client, CLIENT_HELLO, d0); (Server, SERVER_HELLO, dr); (Client, CLIENT_HELLO, dn)] /\
     asks_again C dr suite /\
     picks C (g_suites g) (g_groups g) (g_sigalgs g) (g_chain g) d0 random suite group sg /\
     picks C [suite] [group] [sg] (g_chain g) dn random suite group sg).

(* the random of a server, drawn when it is created *)
Definition own_random (c : conn) : Prop :=
  exists u, c_sunique c = Some u /\ blen u = 32 /\ u <> retry_random.
(* what the life of a server leads to when its random is not the one that marks
   a HelloRetryRequest *)
Definition started (C : crypto) (g : config) (c : conn) : Prop :=
  exists c0 ops, created g c0 /\ own_random c0 /\ c = run C ops c0.
(* the HelloRetryRequests among the messages sent *)
Definition sent_retries (ms : list hmsg) : nat :=
  length (filter (fun m => side_eqb (m_side m) Server && is_retry m) ms).

(* --- what a server must refuse, and how ---------------------------------- *)
Definition common (ours theirs : list N) : Prop := exists x, In x ours /\ In x theirs.
Definition version_ok (exts : list ext) : Prop :=
  exists l, ext_get SUPPORTED_VERSIONS exts = Some (ESupVersionsReq l) /\ In 0x0304 l.
Definition groups_ok (g : config) (exts : list ext) : Prop :=
  exists l, ext_get SUPPORTED_GROUPS exts = Some (ESupportedGroups l) /\ common (g_groups g) l.
Definition fitting (C : crypto) (g : config) (cert : bytes) (algs : list N) : Prop :=
  exists x, In x (g_sigalgs g) /\ In x (schemes_of_key (cr_cert_pubkey_oid C cert)) /\ In x algs.
Definition algs_ok (C : crypto) (g : config) (exts : list ext) : Prop :=
  exists l cert rest, ext_get SIGNATURE_ALGORITHMS exts = Some (ESigAlgs l) /\ g_chain g = Some (cert :: rest) /\
    schemes_of_key (cr_cert_pubkey_oid C cert) <> [] /\ fitting C g cert l.
(* the key share for the group we prefer, when there is one *)
Definition share_for (g : config) (exts : list ext) (group : N) (peer : option bytes) : Prop :=
  exists groups, ext_get SUPPORTED_GROUPS exts = Some (ESupportedGroups groups) /\
    prefers (fun y => In y groups) (g_groups g) group /\
    match peer with
    | Some p => exists l, ext_get KEY_SHARE exts = Some (EKeyShareReq l) /\ In group named_groups /\
        forall q, In (group, q) l <-> q = p
    | None => ext_get KEY_SHARE exts = None \/
        exists l, ext_get KEY_SHARE exts = Some (EKeyShareReq l) /\ forall q, ~ In (group, q) l
    end.
Definition share_ok (C : crypto) (g : config) (priv : bytes) (exts : list ext) : Prop :=
  exists group peer pub x s, share_for g exts group (Some peer) /\
    kx_init C group priv = Ok pub /\ kx_resume C group priv peer = Ok (x :: s).
Definition offers_cct (exts : list ext) (l : list N) : Prop :=
  ext_get CLIENT_CERTIFICATE_TYPE exts = None /\ l = [CT_X509] \/
  ext_get CLIENT_CERTIFICATE_TYPE exts = Some (EClientCertTypeReq l).
Definition offers_sct (exts : list ext) (l : list N) : Prop :=
  ext_get SERVER_CERTIFICATE_TYPE exts = None /\ l = [CT_X509] \/
  ext_get SERVER_CERTIFICATE_TYPE exts = Some (EServerCertTypeReq l).
Definition cct_ok (g : config) (exts : list ext) : Prop :=
  require_peer_auth g = false \/ exists l, offers_cct exts l /\ common (peer_certificate_types g) l.
Definition sct_ok (g : config) (exts : list ext) : Prop := exists l, offers_sct exts l /\ common (certificate_types g) l.
Definition mfl_ok (exts : list ext) : Prop :=
  ext_get MAX_FRAGMENT_LENGTH exts = None \/
  exists code o, ext_get MAX_FRAGMENT_LENGTH exts = Some (EMaxFragLen code) /\ mfl_octets code = Some o.

(* the extensions of a hello are refused with this alert; [priv] is our own
   private key *)
Inductive refuses (C : crypto) (g : config) (priv : bytes) (exts : list ext) : N -> Prop :=
| rf_no_version : ext_get SUPPORTED_VERSIONS exts = None -> refuses C g priv exts 70
| rf_version l : ext_get SUPPORTED_VERSIONS exts = Some (ESupVersionsReq l) -> ~ In 0x0304 l -> refuses C g priv exts 70
| rf_no_groups : version_ok exts -> ext_get SUPPORTED_GROUPS exts = None -> refuses C g priv exts 109
| rf_groups l : version_ok exts -> ext_get SUPPORTED_GROUPS exts = Some (ESupportedGroups l) -> ~ common (g_groups g) l ->
    refuses C g priv exts 40
| rf_no_algs : version_ok exts -> groups_ok g exts -> ext_get SIGNATURE_ALGORITHMS exts = None -> refuses C g priv exts 109
| rf_algs l cert rest : version_ok exts -> groups_ok g exts -> ext_get SIGNATURE_ALGORITHMS exts = Some (ESigAlgs l) ->
    g_chain g = Some (cert :: rest) -> schemes_of_key (cr_cert_pubkey_oid C cert) <> [] -> ~ fitting C g cert l ->
    refuses C g priv exts 40
| rf_share group peer pub : version_ok exts -> groups_ok g exts -> algs_ok C g exts -> share_for g exts group (Some peer) ->
    kx_init C group priv = Ok pub -> kx_resume C group priv peer = Err XValue -> refuses C g priv exts 40
| rf_cct l : version_ok exts -> groups_ok g exts -> algs_ok C g exts -> share_ok C g priv exts ->
    require_peer_auth g = true -> offers_cct exts l -> ~ common (peer_certificate_types g) l -> refuses C g priv exts 43
| rf_sct l : version_ok exts -> groups_ok g exts -> algs_ok C g exts -> share_ok C g priv exts -> cct_ok g exts ->
    offers_sct exts l -> ~ common (certificate_types g) l -> refuses C g priv exts 43
| rf_alpn l : version_ok exts -> groups_ok g exts -> algs_ok C g exts -> share_ok C g priv exts -> cct_ok g exts ->
    sct_ok g exts -> mfl_ok exts -> ext_get ALPN exts = Some (EAlpn l) -> g_alpn g <> [] ->
    (forall p, In p l -> ~ In p (g_alpn g)) -> refuses C g priv exts 120.

(* a server that asked for a retry, after choosing for the first hello *)
Definition retrying (C : crypto) (g : config) (c : conn) (random : bytes) (suite group sg : N) : Prop :=
  c_state c = ServerWaitClientHello false /\
  exists d0 dr, c_hs c = [(Client, CLIENT_HELLO, d0); (Server, SERVER_HELLO, dr)] /\
    is_retry (Server, SERVER_HELLO, dr) = true /\
    picks C (g_suites g) (g_groups g) (g_sigalgs g) (g_chain g) d0 random suite group sg.
(* a handshake message makes this alert, that is sent in the clear *)
Definition turned_down (C : crypto) (c : conn) (d : bytes) (a : N) : Prop :=
  exists c', handle_content C CT_HANDSHAKE d c = (Err (XAlert a), c') /\ can_send (c_state c') = true /\ enc_on c' = false.
(* the parameters are chosen *)
Definition chosen (s : state) : bool := match s with ServerWaitFinished _ | Connected => true | _ => false end.
