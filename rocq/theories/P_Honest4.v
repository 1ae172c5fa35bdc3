From Verif Require Import Base Iana Crypto Config Ext Msg Cipher Kex Sig Ocsp Transcript Conn S_Hist S_Conn S_Send S_Codec S_Honest P_Base P_Tr P_Send P_Deliver P_Honest P_Honest2 P_Honest3.

(* running the handlers *)
Ltac go := cbv beta iota delta [bind get modify ret lift raise set_state upd_nc on_cipher ask_cipher on_tr tr_method digest draw set_cipher
  cset_config cset_nc cset_cipher cset_sig cset_tr cset_in cset_inhs cset_out cset_app cset_cunique cset_sunique cset_state cset_rngi cset_log cset_hs
  c_config c_host c_ocsp c_nc c_cipher c_sig c_tr c_in c_inhs c_out c_app c_cunique c_sunique c_state c_rng c_rngi c_log c_hs
  n_suite n_group n_sigalg n_alpn n_send_hb n_echo_hb n_mfl n_cct n_sct n_want_ocsp n_peer_cert n_peer_key
  nconfig_new nset_suite nset_group nset_sigalg nset_alpn nset_send_hb nset_echo_hb nset_mfl nset_cct nset_sct nset_want_ocsp nset_peer_cert nset_peer_key
  tr_digest t_hashes t_i negb opt_bool noted heard_of epoch_w epoch_r suite_of sig_of on_value_error].

Lemma plain_small m m' data : blen data <= m -> blen data <= m' -> plain_wire m data = plain_wire m' data.
Proof.
  intros A B. unfold plain_wire, frags. apply N.leb_le in A. apply N.leb_le in B. rewrite A, B. reflexivity.
Qed.
Lemma send_plainm C h ty data t c m : enc_on c = false -> can_send (c_state c) = true -> max_frag c = m -> 4096 <= m <= 16384 ->
  msg_type h = Some ty -> ser_content C (KHandshake h) = Ok data ->
  tr_update data (g_side (c_config c)) ty (c_tr c) = (Ok tt, t) ->
  send_content C (KHandshake h) c = (Ok tt, cset_out (c_out c ++ plain_wire m data) (noted c ty data t)).
Proof.
  intros A B D V E F G. rewrite <- D. apply send_plain; try assumption; [rewrite D; lia | apply (ser_hs_head _ _ _ F)].
Qed.
Lemma send_ccsm C c m : enc_on c = false -> can_send (c_state c) = true -> max_frag c = m -> 4096 <= m <= 16384 ->
  send_content C KCcs c = (Ok tt, cset_out (c_out c ++ ccs_record) c).
Proof. intros A B D V. apply send_ccs; [exact A | exact B | rewrite D; lia]. Qed.
Lemma send_plain16 C h ty data t c : enc_on c = false -> can_send (c_state c) = true -> max_frag c = 16384 ->
  msg_type h = Some ty -> ser_content C (KHandshake h) = Ok data ->
  tr_update data (g_side (c_config c)) ty (c_tr c) = (Ok tt, t) ->
  send_content C (KHandshake h) c = (Ok tt, cset_out (c_out c ++ plain_wire 16384 data) (noted c ty data t)).
Proof.
  intros A B D E F G. rewrite <- D. apply send_plain; try assumption; [rewrite D; lia | apply (ser_hs_head _ _ _ F)].
Qed.
Lemma send_ccs16 C c : enc_on c = false -> can_send (c_state c) = true -> max_frag c = 16384 ->
  send_content C KCcs c = (Ok tt, cset_out (c_out c ++ ccs_record) c).
Proof. intros A B D. apply send_ccs; [exact A | exact B | rewrite D; lia]. Qed.
Lemma valid16 : valid_mfl 16384.
Proof. unfold valid_mfl. cbn. auto 6. Qed.
Lemma tag_le s : tag_length s <= 16.
Proof. unfold tag_length. destruct (_ =? _); lia. Qed.
Lemma send_sealed16 C h ty data t c x : aead_sized C -> max_frag c = 16384 -> c_cipher c = Some x -> ready (cs_w x) ->
  can_send (c_state c) = true -> blen data <= 16366 -> msg_type h = Some ty -> ser_content C (KHandshake h) = Ok data ->
  tr_update data (g_side (c_config c)) ty (c_tr c) = (Ok tt, t) ->
  send_content C (KHandshake h) c =
    (Ok tt, cset_out (c_out c ++ hs_record C 16384 x data)
              (cset_log (seal_at CT_HANDSHAKE 16384 x data :: c_log c) (cset_cipher (Some (bump_w x)) (noted c ty data t)))).
Proof.
  intros A V E R S L T F G. rewrite <- V. apply send_sealed; try assumption; rewrite V; [apply valid16|].
  pose proof (tag_le (cs_suite x)). lia.
Qed.

(* the extensions of the ClientHello *)
Section hello.
Variables (C : crypto) (g : config) (host : option str) (group : N) (share : bytes).
Hypothesis Hp : g_public g = None.
Hypothesis Ht : g_trusted_keys g = [].
Lemma ce_get ty : ext_get ty (client_extensions C g host None (group, share)) =
  if SUPPORTED_VERSIONS =? ty then Some (ESupVersionsReq [TLS_1_3])
  else if SIGNATURE_ALGORITHMS =? ty then Some (ESigAlgs (g_sigalgs g))
  else if SUPPORTED_GROUPS =? ty then Some (ESupportedGroups (g_groups g))
  else if HEARTBEAT =? ty then Some (EHeartbeat (if g_echo g then PEER_ALLOWED_TO_SEND else PEER_NOT_ALLOWED_TO_SEND))
  else if (SERVER_NAME =? ty) && match host with Some (x :: h) => negb (cr_is_ip C (x :: h)) | _ => false end
       then Some (EServerNameReq host)
  else if (ALPN =? ty) && negb (is_nil (g_alpn g)) then Some (EAlpn (g_alpn g))
  else if (STATUS_REQUEST =? ty) && opt_bool (g_trust g) then Some (EStatusReq [] [])
  else if KEY_SHARE =? ty then Some (EKeyShareReq [(group, share)])
  else None.
Proof.
  unfold client_extensions. rewrite Hp, Ht. change (opt_bool (@None bytes)) with false. change (is_nil (@nil bytes)) with true. cbv iota. cbn [app].
  unfold ext_get. cbn [find ext_type]. do 4 (destruct (_ =? ty); [reflexivity|]).
  assert (X : forall (b : bool) e r, find (fun e => ext_type e =? ty) ((if b then [e] else []) ++ r) =
    if (ext_type e =? ty) && b then Some e else find (fun e => ext_type e =? ty) r).
  { intros [] e r; cbn [app find]; destruct (ext_type e =? ty); reflexivity. }
  assert (Y : forall (b : bool) e r, find (fun e => ext_type e =? ty) ((if b then [] else [e]) ++ r) =
    if (ext_type e =? ty) && negb b then Some e else find (fun e => ext_type e =? ty) r).
  { intros [] e r; cbn [app find negb]; destruct (ext_type e =? ty); reflexivity. }
  assert (Z : forall r, find (fun e => ext_type e =? ty) ((match host with Some (x :: h) => if cr_is_ip C (x :: h) then [] else [EServerNameReq (Some (x :: h))] | _ => [] end) ++ r) =
    if (SERVER_NAME =? ty) && match host with Some (x :: h) => negb (cr_is_ip C (x :: h)) | _ => false end then Some (EServerNameReq host) else find (fun e => ext_type e =? ty) r).
  { intro r. destruct host as [[|x h]|]; rewrite ?andb_false_r; try reflexivity. destruct (cr_is_ip C (x :: h)); rewrite ?andb_false_r; [reflexivity|].
    cbn [app find ext_type negb]. rewrite andb_true_r. reflexivity. }
  rewrite Z. destruct (_ && _); [reflexivity|]. rewrite Y. cbn [ext_type]. destruct (_ && _); [reflexivity|].
  rewrite X. cbn [ext_type]. destruct (_ && _); [reflexivity|]. cbn [find ext_type]. reflexivity.
Qed.
End hello.
