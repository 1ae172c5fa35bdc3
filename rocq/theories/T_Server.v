From Verif Require Import Base Iana Crypto Config Serial Ext Msg Cipher Kex Sig Transcript Conn Toy P_Toy
  S_Utils S_Hist S_Conn S_Send S_Speak S_Alert S_Keys S_Auth S_Server
  P_Base P_Alert P_Client P_Client2 P_Flight P_Server P_Server2 P_Retry P_Refuse P_Order T_Alert T_Client.

(* C17.  The messages of the handshake are in c_hs; the messages j1 and j2 are
   there only when so many records were sealed that the next would be refused. *)
Theorem c17_finished C g c :
  aead_sized C -> hmac_sized C -> hash_sized C -> g_side g = Server -> started C g c ->
  c_state c = Connected ->
  exists hello sh ee cd vd sd j1 fd j2 dn suite h group sg pub shared,
    c_hs c = hello ++ [(Server, SERVER_HELLO, sh); EE ee; Cert cd; CV vd; SFin sd] ++ j1 ++ [CFin fd] ++ j2 /\
    (few c -> j1 = [] /\ j2 = []) /\
    hellos C g hello dn suite group sg /\ shares C (c_rng c) dn group pub shared /\ suite_hash suite = Some h /\
    finished_says C h Client shared (rfc_transcript C h (hello ++ [(Server, SERVER_HELLO, sh)]))
      (rfc_transcript C h (hello ++ [(Server, SERVER_HELLO, sh); EE ee; Cert cd; CV vd; SFin sd])) fd.
Proof. exact (server_finished C g c). Qed.
Print Assumptions c17_finished.

Definition c17_s := run toy [OInit; ORecv (c_out toy_c1); OFlush; ORecv (c_out toy_c2)] toy_s0.
Lemma toy_s0_random : own_random toy_s0.
Proof. exists (toy_rng 2 100). split; [vm_compute; reflexivity|]. split; [vm_compute; reflexivity | discriminate]. Qed.
Lemma toy_started ops : started toy toy_server (run toy ops toy_s0).
Proof. exists toy_s0, ops. split; [exact toy_s0_created|]. split; [exact toy_s0_random | reflexivity]. Qed.
Example c17_case : aead_sized toy /\ hmac_sized toy /\ hash_sized toy /\ g_side toy_server = Server /\
  started toy toy_server c17_s /\ c_state c17_s = Connected /\ few c17_s.
Proof.
  split; [exact toy_aead_sized|]. split; [exact toy_hmac_sized|]. split; [exact toy_hash_sized|].
  split; [reflexivity|]. split; [apply toy_started|]. split; vm_compute; reflexivity.
Qed.

(* C18.  Client authentication is not implemented by the server: asked for it,
   the server does not finish a handshake. *)
Theorem c18_never_connected C g c :
  aead_sized C -> hmac_sized C -> hash_sized C -> g_side g = Server -> started C g c ->
  require_peer_auth g = true -> c_state c <> Connected /\ forall h, c_state c <> ServerWaitFinished h.
Proof.
  intros As Hs Hh Hg R Q. split; [intro E | intros h E];
  (assert (F : require_peer_auth g = false) by (apply (server_no_auth C g c As Hs Hh Hg R); eauto)); congruence.
Qed.
Print Assumptions c18_never_connected.

(* is_connected says True of a connection closed by the peer before any hello *)
Definition c18_server : config :=
  mkConfig Server toy_suites [x25519; secp256r1] [ed25519; ed448] (Some 1) None 5 []
    (Some toy_cert) None (Some [toy_cert]) 16384 true [ascii_bytes "http/1.1"%string] [].
Definition c18_s0 : conn := get_ok (new_conn false c18_server None false (toy_rng 2 100) (toy_rng 2)).
Definition c18_s := run toy [OInit; ORecv (record CT_ALERT [x01; x00])] c18_s0.
Lemma c18_started ops : started toy c18_server (run toy ops c18_s0).
Proof.
  exists c18_s0, ops. split; [|split; [|reflexivity]].
  - split; [vm_compute; reflexivity|]. split; [cbn; tauto|]. exists false, None, false, (toy_rng 2 100), (toy_rng 2). vm_compute. reflexivity.
  - exists (toy_rng 2 100). split; [vm_compute; reflexivity|]. split; [vm_compute; reflexivity | discriminate].
Qed.
Example c18_case : g_side c18_server = Server /\ require_peer_auth c18_server = true /\
  started toy c18_server (run toy [OInit; ORecv (c_out toy_c1)] c18_s0).
Proof. split; [reflexivity|]. split; [reflexivity|]. apply c18_started. Qed.
Theorem c18_is_connected_refuted : exists C g c, g_side g = Server /\ require_peer_auth g = true /\ started C g c /\
  c_hs c = [] /\ is_connected c = true.
Proof.
  exists toy, c18_server, c18_s. split; [reflexivity|]. split; [reflexivity|]. split; [apply c18_started|].
  split; vm_compute; reflexivity.
Qed.
Print Assumptions c18_is_connected_refuted.

(* C20 *)
Theorem c20_settled C g c :
  aead_sized C -> hmac_sized C -> hash_sized C -> g_side g = Server -> started C g c -> chosen (c_state c) = true ->
  exists hello sh rest dn suite group sg pub shared nc enc ee sid u key sig th vd ct,
    c_hs c = hello ++ (Server, SERVER_HELLO, sh) :: rest /\
    hellos C g hello dn suite group sg /\ shares C (c_rng c) dn group pub shared /\
    c_nc c = Some nc /\ n_suite nc = Some suite /\ n_group nc = Some group /\ settles C g dn nc enc /\
    ser_content C (KHandshake (HServerHello false u sid suite
       (ext_dict [ESupVersionsResp 0x0304; EKeyShareResp group pub]))) = Ok sh /\
    In (EE ee) rest /\ ser_content C (KHandshake (HEncExt (ext_dict enc))) = Ok ee /\
    In (CV vd) rest /\ g_private g = Some key /\ cr_sign C sg key (signed_content Server th) = Ok sig /\
    ser_content C (KHandshake (HCertVerify sg sig)) = Ok vd /\ In (Cert ct) rest /\
    exists h, suite_hash suite = Some h /\ th = rfc_transcript C h (hello ++ [(Server, SERVER_HELLO, sh); EE ee; Cert ct]).
Proof. exact (server_settled C g c). Qed.
Print Assumptions c20_settled.

Theorem c20_no_suite C g c d random sid suites exts :
  aead_sized C -> hmac_sized C -> hash_sized C -> g_side g = Server -> started C g c ->
  c_state c = ServerWaitClientHello true -> c_hs c = [] ->
  says C None d (HClientHello random sid suites exts) -> ~ common (g_suites g) suites -> turned_down C c d 40.
Proof. intros A B D E F. exact (first_no_suite C g c A B D E F d random sid suites exts). Qed.
Print Assumptions c20_no_suite.

Theorem c20_refused C g c d random sid suites exts a :
  aead_sized C -> hmac_sized C -> hash_sized C -> g_side g = Server -> started C g c ->
  c_state c = ServerWaitClientHello true -> c_hs c = [] ->
  says C None d (HClientHello random sid suites exts) -> common (g_suites g) suites ->
  refuses C g (c_rng c (c_rngi c)) exts a -> turned_down C c d a.
Proof. intros A B D E F. exact (first_refused C g c A B D E F d random sid suites exts a). Qed.
Print Assumptions c20_refused.

Definition hello_bytes suites exts : bytes :=
  match ser_content toy (KHandshake (HClientHello (toy_rng 9 9) [] suites exts)) with Ok d => d | Err _ => [] end.
Definition c20_exts key : list ext :=
  [ESupVersionsReq [0x0304]; ESigAlgs [ed448; ed25519]; ESupportedGroups [secp256r1; x25519]; EAlpn [[x68; x33]]; key].
Definition c20_s := run toy [OInit] toy_s0.
Example c20_settled_case : chosen (c_state c17_s) = true.
Proof. vm_compute. reflexivity. Qed.
Example c20_no_suite_case : c_state c20_s = ServerWaitClientHello true /\ c_hs c20_s = [] /\
  says toy None (hello_bytes [0x1302] []) (HClientHello (toy_rng 9 9) [] [0x1302] []) /\ ~ common (g_suites toy_server) [0x1302].
Proof.
  split; [vm_compute; reflexivity|]. split; [vm_compute; reflexivity|]. split; [vm_compute; reflexivity|].
  intros (x & [<-|[<-|[]]] & [E|[]]); discriminate E.
Qed.
(* h3 only, while the server has http/1.1 and h2 *)
Definition c20_key := EKeyShareReq [(secp256r1, toy_rng 9 10); (x25519, toy_rng 9 11)].
Example c20_refused_case :
  says toy None (hello_bytes [0x1301] (c20_exts c20_key)) (HClientHello (toy_rng 9 9) [] [0x1301] (c20_exts c20_key)) /\
  common (g_suites toy_server) [0x1301] /\ refuses toy toy_server (c_rng c20_s (c_rngi c20_s)) (c20_exts c20_key) 120.
Proof.
  split; [vm_compute; reflexivity|]. split; [exists 0x1301; cbn; auto|].
  assert (V : version_ok (c20_exts c20_key)) by (exists [0x0304]; split; [reflexivity | left; reflexivity]).
  assert (G : groups_ok toy_server (c20_exts c20_key)) by (exists [secp256r1; x25519]; split; [reflexivity | exists x25519; cbn; auto]).
  assert (P : prefers (fun y => In y [secp256r1; x25519]) (g_groups toy_server) x25519).
  { exists [], [secp256r1]. split; [reflexivity|]. split; [right; left; reflexivity | intros y []]. }
  apply rf_alpn with (l := [[x68; x33]]); try exact V; try exact G.
  - exists [ed448; ed25519], toy_cert, []. split; [reflexivity|]. split; [reflexivity|]. split; [discriminate|].
    exists ed25519. cbn. auto.
  - assert (K : exists x s, kx_resume toy x25519 (c_rng c20_s (c_rngi c20_s)) (toy_rng 9 11) = Ok (x :: s)) by (do 2 eexists; vm_compute; reflexivity).
    assert (K' : exists p, kx_init toy x25519 (c_rng c20_s (c_rngi c20_s)) = Ok p) by (eexists; vm_compute; reflexivity).
    destruct K as (x & s & K). destruct K' as (p & K'). exists x25519, (toy_rng 9 11), p, x, s. split; [|split; [exact K' | exact K]].
    exists [secp256r1; x25519]. split; [reflexivity|]. split; [exact P|]. eexists. split; [reflexivity|]. split; [vm_compute; tauto|].
    intro q. split; [intros [E|[E|[]]]; [discriminate E | congruence] | intros ->; right; left; reflexivity].
  - left. reflexivity.
  - exists [CT_X509]. split; [left; split; reflexivity|]. exists CT_X509. cbn. auto.
  - left. reflexivity.
  - reflexivity.
  - discriminate.
  - intros p [<-|[]] [E|[E|[]]]; discriminate E.
Qed.

(* C21 *)
Theorem c21_one_retry C g c : g_side g = Server -> started C g c -> (sent_retries (c_hs c) <= 1)%nat.
Proof. exact (server_one_retry C g c). Qed.
Print Assumptions c21_one_retry.

Theorem c21_no_suite C g c d random sid suites exts random0 suite group sg :
  aead_sized C -> hmac_sized C -> hash_sized C -> g_side g = Server -> started C g c ->
  retrying C g c random0 suite group sg ->
  says C None d (HClientHello random sid suites exts) -> ~ In suite suites -> turned_down C c d 40.
Proof. intros A B D E F. exact (second_no_suite C g c A B D E F d random sid suites exts random0 suite group sg). Qed.
Print Assumptions c21_no_suite.

Theorem c21_other_random C g c d random sid suites exts random0 suite group sg :
  aead_sized C -> hmac_sized C -> hash_sized C -> g_side g = Server -> started C g c ->
  retrying C g c random0 suite group sg ->
  says C None d (HClientHello random sid suites exts) -> In suite suites -> random <> random0 -> turned_down C c d 47.
Proof. intros A B D E F. exact (second_other_random C g c A B D E F d random sid suites exts random0 suite group sg). Qed.
Print Assumptions c21_other_random.

Theorem c21_no_share C g c d sid suites exts random0 suite group sg :
  aead_sized C -> hmac_sized C -> hash_sized C -> g_side g = Server -> started C g c ->
  retrying C g c random0 suite group sg ->
  says C None d (HClientHello random0 sid suites exts) -> In suite suites ->
  version_ok exts -> groups_ok (restrict g suite group [sg]) exts -> algs_ok C (restrict g suite group [sg]) exts ->
  share_for (restrict g suite group [sg]) exts group None -> turned_down C c d 47.
Proof. intros A B D E F. exact (second_no_share C g c A B D E F d sid suites exts random0 suite group sg). Qed.
Print Assumptions c21_no_share.

Theorem c21_refused C g c d sid suites exts a random0 suite group sg :
  aead_sized C -> hmac_sized C -> hash_sized C -> g_side g = Server -> started C g c ->
  retrying C g c random0 suite group sg ->
  says C None d (HClientHello random0 sid suites exts) -> In suite suites ->
  refuses C (restrict g suite group [sg]) (c_rng c (c_rngi c)) exts a -> turned_down C c d a.
Proof. intros A B D E F. exact (second_refused C g c A B D E F d sid suites exts a random0 suite group sg). Qed.
Print Assumptions c21_refused.

(* the hello has a share for another group than the one the server prefers *)
Definition c21_key := EKeyShareReq [(secp256r1, toy_rng 9 10)].
Definition c21_hello := hello_bytes [0x1301] (c20_exts c21_key).
Definition c21_s := run toy [OInit; ORecv (record CT_HANDSHAKE c21_hello)] toy_s0.
Example c21_case : retrying toy toy_server c21_s (toy_rng 9 9) 0x1301 x25519 ed25519 /\ sent_retries (c_hs c21_s) = 1%nat.
Proof.
  assert (S : c_state c21_s = ServerWaitClientHello false) by (vm_compute; reflexivity).
  assert (H : exists dr, c_hs c21_s = [(Client, CLIENT_HELLO, c21_hello); (Server, SERVER_HELLO, dr)] /\
    is_retry (Server, SERVER_HELLO, dr) = true) by (eexists; split; vm_compute; reflexivity).
  destruct H as (dr & H & Ir). split; [|vm_compute; reflexivity].
  split; [exact S|]. exists c21_hello, dr. split; [exact H|]. split; [exact Ir|].
  exists [], [0x1301], (c20_exts c21_key), [0x0304], [secp256r1; x25519], [ed448; ed25519], toy_cert, [].
  split; [vm_compute; reflexivity|].
  split; [exists [0x1303], []; split; [reflexivity|]; split; [left; reflexivity | intros y [<-|[]] [E|[]]; discriminate E]|].
  split; [reflexivity|]. split; [left; reflexivity|]. split; [reflexivity|].
  split; [exists [], [secp256r1]; split; [reflexivity|]; split; [right; left; reflexivity | intros y []]|].
  split; [reflexivity|]. split; [reflexivity|].
  exists [], [ed448]. split; [reflexivity|]. split; [split; [left; reflexivity | right; left; reflexivity] | intros y []].
Qed.
(* the same hello again is refused, and so is one with another random *)
Example c21_no_share_case : share_for (restrict toy_server 0x1301 x25519 [ed25519]) (c20_exts c21_key) x25519 None /\
  says toy None c21_hello (HClientHello (toy_rng 9 9) [] [0x1301] (c20_exts c21_key)).
Proof.
  split; [|vm_compute; reflexivity]. exists [secp256r1; x25519]. split; [reflexivity|].
  split; [exists [], []; split; [reflexivity|]; split; [right; left; reflexivity | intros y []]|].
  right. eexists. split; [reflexivity|]. intros q [E|[]]. discriminate E.
Qed.

(* C23 *)
Theorem c23_server C g c :
  aead_sized C -> hmac_sized C -> hash_sized C -> g_side g = Server -> started C g c ->
  running (c_state c) = true -> few c -> exists n, (n <= 1)%nat /\ handshake_prefix n (c_hs c).
Proof. exact (server_order C g c). Qed.
Print Assumptions c23_server.

(* missing: the client does not bound the number n of retries by one *)
Theorem c23_client_partial C g c :
  aead_sized C -> hmac_sized C -> hash_sized C -> g_side g = Client -> reachable C g c ->
  running (c_state c) = true -> few c -> exists n, handshake_prefix n (c_hs c).
Proof. exact (order_client C g c). Qed.
Print Assumptions c23_client_partial.

Theorem c23_client_refuted : exists C g c, aead_sized C /\ hmac_sized C /\ hash_sized C /\ g_side g = Client /\ reachable C g c /\
  running (c_state c) = true /\ few c /\ map token_of (c_hs c) = [TCH; THRR; TCH; THRR; TCH] /\
  ~ (exists n, (n <= 1)%nat /\ handshake_prefix n (c_hs c)).
Proof.
  assert (T : map token_of (c_hs (run toy [OInit; ORecv (record CT_HANDSHAKE c22_hrr); ORecv (record CT_HANDSHAKE c22_hrr)] toy_c0))
    = [TCH; THRR; TCH; THRR; TCH]) by (vm_compute; reflexivity).
  exists toy, toy_client, (run toy [OInit; ORecv (record CT_HANDSHAKE c22_hrr); ORecv (record CT_HANDSHAKE c22_hrr)] toy_c0).
  split; [exact toy_aead_sized|]. split; [exact toy_hmac_sized|]. split; [exact toy_hash_sized|].
  split; [reflexivity|]. split; [exists toy_c0; eexists; split; [exact toy_c0_created | reflexivity]|].
  split; [vm_compute; reflexivity|]. split; [vm_compute; reflexivity|]. split; [exact T|].
  intros (n & L & cr & w & E). rewrite T in E. destruct n as [|[|n]]; [| |lia]; destruct cr; discriminate E.
Qed.
Print Assumptions c23_client_refuted.
Example c23_case : running (c_state c17_s) = true /\ few c17_s /\ map token_of (c_hs c17_s) = word 0 false /\
  running (c_state c43_c) = true /\ few c43_c /\ map token_of (c_hs c43_c) = word 0 false.
Proof. split; [vm_compute; reflexivity|]. split; [vm_compute; reflexivity|]. split; [vm_compute; reflexivity|]. split; [vm_compute; reflexivity|]. split; vm_compute; reflexivity. Qed.

(* C24 *)
Theorem c24_server C g c :
  aead_sized C -> hmac_sized C -> hash_sized C -> g_side g = Server -> started C g c ->
  chosen (c_state c) = true -> few c ->
  exists nc suite h, c_nc c = Some nc /\ n_suite nc = Some suite /\ suite_hash suite = Some h /\
    tr_digest C (c_tr c) = Ok (rfc_transcript C h (c_hs c)).
Proof. exact (server_transcript C g c). Qed.
Print Assumptions c24_server.

(* missing: handshakes with a HelloRetryRequest, that a client does not hash *)
Theorem c24_client_partial C g c :
  aead_sized C -> hmac_sized C -> hash_sized C -> g_side g = Client -> reachable C g c ->
  hashing (c_state c) = true -> few c -> forallb (fun m => negb (is_retry m)) (c_hs c) = true ->
  exists nc suite h, c_nc c = Some nc /\ n_suite nc = Some suite /\ suite_hash suite = Some h /\
    tr_digest C (c_tr c) = Ok (rfc_transcript C h (c_hs c)).
Proof. exact (transcript_client C g c). Qed.
Print Assumptions c24_client_partial.

Theorem c24_same_partial C g c g' s :
  aead_sized C -> hmac_sized C -> hash_sized C ->
  g_side g = Client -> reachable C g c -> hashing (c_state c) = true -> few c ->
  g_side g' = Server -> started C g' s -> chosen (c_state s) = true -> few s ->
  c_hs c = c_hs s -> forallb (fun m => negb (is_retry m)) (c_hs c) = true ->
  option_map n_suite (c_nc c) = option_map n_suite (c_nc s) -> tr_digest C (c_tr c) = tr_digest C (c_tr s).
Proof. exact (transcript_same C g c g' s). Qed.
Print Assumptions c24_same_partial.
Example c24_case : hashing (c_state c43_c) = true /\ few c43_c /\ chosen (c_state c17_s) = true /\ few c17_s /\
  c_hs c43_c = c_hs c17_s /\ forallb (fun m => negb (is_retry m)) (c_hs c43_c) = true /\
  option_map n_suite (c_nc c43_c) = option_map n_suite (c_nc c17_s).
Proof.
  split; [vm_compute; reflexivity|]. split; [vm_compute; reflexivity|]. split; [vm_compute; reflexivity|].
  split; [vm_compute; reflexivity|]. split; [vm_compute; reflexivity|]. split; vm_compute; reflexivity.
Qed.

(* after a HelloRetryRequest the hash of the client is not that of RFC 8446,
   while that of the server is (c24_server) *)
Definition c24_sh : bytes :=
  match ser_content toy (KHandshake (HServerHello false (toy_rng 7 7) [] TLS_CHACHA20_POLY1305_SHA256
   [ESupVersionsResp 0x0304; EKeyShareResp secp256r1 (toy_rng 7 8)])) with Ok d => d | Err _ => [] end.
Definition c24_c := run toy [OInit; ORecv (record CT_HANDSHAKE c22_hrr); ORecv (record CT_HANDSHAKE c24_sh)] toy_c0.
Theorem c24_client_refuted : exists C g c, aead_sized C /\ hmac_sized C /\ hash_sized C /\ g_side g = Client /\ reachable C g c /\
  hashing (c_state c) = true /\ few c /\ map token_of (c_hs c) = [TCH; THRR; TCH; TSH] /\
  ~ (exists nc suite h, c_nc c = Some nc /\ n_suite nc = Some suite /\ suite_hash suite = Some h /\
       tr_digest C (c_tr c) = Ok (rfc_transcript C h (c_hs c))).
Proof.
  exists toy, toy_client, c24_c. split; [exact toy_aead_sized|]. split; [exact toy_hmac_sized|]. split; [exact toy_hash_sized|].
  split; [reflexivity|]. split; [exists toy_c0; eexists; split; [exact toy_c0_created | reflexivity]|].
  split; [vm_compute; reflexivity|]. split; [vm_compute; reflexivity|]. split; [vm_compute; reflexivity|].
  assert (N : option_map n_suite (c_nc c24_c) = Some (Some TLS_CHACHA20_POLY1305_SHA256)) by (vm_compute; reflexivity).
  assert (B : match tr_digest toy (c_tr c24_c) with Ok d => beqb d (rfc_transcript toy SHA256 (c_hs c24_c)) | Err _ => false end = false) by (vm_compute; reflexivity).
  intros (nc & suite & h & E1 & E2 & E3 & E4). rewrite E1 in N. cbn in N. rewrite E2 in N. injection N; intros ->.
  injection E3; intros <-. rewrite E4 in B. assert (X : forall b, beqb b b = true) by (intro; apply beqb_eq; reflexivity). rewrite X in B. discriminate B.
Qed.
Print Assumptions c24_client_refuted.
