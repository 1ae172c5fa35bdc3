From Verif Require Import Base Iana Crypto Config Ext Msg Cipher Kex Sig Ocsp Transcript Conn S_Hist S_Conn S_Send S_Codec S_Honest P_Base P_Tr P_Send P_Deliver P_Honest P_Honest2 P_Honest3 P_Honest4.

(* one handshake: the configurations, what is agreed on and what is sent *)
Record deal := mkDeal {
  dl_gc : config; dl_gs : config; dl_host : option str; dl_cocsp : bool; dl_socsp : bool;
  dl_cu : bytes; dl_su : bytes; dl_crng : N -> bytes; dl_srng : N -> bytes;
  dl_suite : N; dl_h : hashalg; dl_group : N; dl_pa : bytes; dl_pb : bytes; dl_z : bytes;
  dl_leaf : bytes; dl_rest : list bytes; dl_key : bytes; dl_st : option bytes; dl_sg : N; dl_sig : bytes;
  dl_al : option bytes; dl_fs : bytes; dl_fc : bytes;
  dl_ch : bytes; dl_sh : bytes; dl_ee : bytes; dl_ce : bytes; dl_cv : bytes; dl_sf : bytes; dl_cf : bytes }.

Definition heartbeat_mode (g : config) : N := if g_echo g then PEER_ALLOWED_TO_SEND else PEER_NOT_ALLOWED_TO_SEND.
Definition c_exts (C : crypto) (d : deal) : list ext := client_extensions C (dl_gc d) (dl_host d) None (dl_group d, dl_pa d).
Definition ch_of C d := HClientHello (dl_cu d) [] (g_suites (dl_gc d)) (c_exts C d).
Definition sh_of d := HServerHello false (dl_su d) [] (dl_suite d) [ESupVersionsResp TLS_1_3; EKeyShareResp (dl_group d) (dl_pb d)].
Definition ee_of d := HEncExt (match dl_al d with Some p => [EAlpn [p]] | None => [] end ++ [EHeartbeat (heartbeat_mode (dl_gs d))]).
Definition ce_of d := HCert [] (entries_of (dl_leaf d) (dl_rest d) (dl_st d)).
Definition cv_of d := HCertVerify (dl_sg d) (dl_sig d).
(* the transcript after each message *)
Definition m_sh d := dl_ch d ++ dl_sh d.
Definition m_ee d := m_sh d ++ dl_ee d.
Definition m_ce d := m_ee d ++ dl_ce d.
Definition m_cv d := m_ce d ++ dl_cv d.
Definition m_sf d := m_cv d ++ dl_sf d.
Definition m_cf d := m_sf d ++ dl_cf d.

Record agreed (C : crypto) (d : deal) : Prop := {
  ag_gs : g_side (dl_gs d) = Server;
  ag_gc : g_side (dl_gc d) = Client;
  ag_mfls : g_mfl (dl_gs d) = 16384;
  ag_mflc : 4096 <= g_mfl (dl_gc d) <= 16384;
  ag_pub : g_public (dl_gc d) = None;
  ag_tkc : g_trusted_keys (dl_gc d) = [];
  ag_tks : g_trusted_keys (dl_gs d) = [];
  ag_trs : g_trust (dl_gs d) = None;
  ag_suite : first_common (g_suites (dl_gs d)) (g_suites (dl_gc d)) = Some (dl_suite d);
  ag_suitec : memN (dl_suite d) (g_suites (dl_gc d)) = true;
  ag_hash : suite_hash (dl_suite d) = Some (dl_h d);
  ag_group : first_common (g_groups (dl_gs d)) (g_groups (dl_gc d)) = Some (dl_group d);
  ag_share : exists l, g_groups (dl_gc d) = dl_group d :: l;
  ag_named : memN (dl_group d) named_groups = true;
  ag_kxa : kx_init C (dl_group d) (dl_crng d 0) = Ok (dl_pa d);
  ag_kxb : kx_init C (dl_group d) (dl_srng d 0) = Ok (dl_pb d);
  ag_kxz : kx_resume C (dl_group d) (dl_crng d 0) (dl_pb d) = Ok (dl_z d);
  ag_kxz' : kx_resume C (dl_group d) (dl_srng d 0) (dl_pa d) = Ok (dl_z d);
  ag_z : dl_z d <> [];
  ag_chain : g_chain (dl_gs d) = Some (dl_leaf d :: dl_rest d);
  ag_key : g_private (dl_gs d) = Some (dl_key d);
  ag_algs : exists l, for_public_key_oid (cr_cert_pubkey_oid C (dl_leaf d)) = Ok l /\
    find (fun s => memN s l && memN s (g_sigalgs (dl_gc d))) (g_sigalgs (dl_gs d)) = Some (dl_sg d);
  ag_staple : forall c n, c_ocsp c = dl_socsp d -> n_want_ocsp n = Some (opt_bool (g_trust (dl_gc d))) ->
    staple C c n (dl_leaf d :: dl_rest d) = Ok (leaf_exts (dl_st d));
  ag_alpn : match dl_al d with
            | Some p => is_nil (g_alpn (dl_gc d)) = false /\ is_nil (g_alpn (dl_gs d)) = false /\
                        find (fun p => memB p (g_alpn (dl_gc d))) (g_alpn (dl_gs d)) = Some p /\ memB p (g_alpn (dl_gc d)) = true
            | None => is_nil (g_alpn (dl_gc d)) = true \/ is_nil (g_alpn (dl_gs d)) = true
            end;
  ag_ch : ser_content C (KHandshake (ch_of C d)) = Ok (dl_ch d);
  ag_sh : ser_content C (KHandshake (sh_of d)) = Ok (dl_sh d);
  ag_ee : ser_content C (KHandshake (ee_of d)) = Ok (dl_ee d);
  ag_ce : ser_content C (KHandshake (ce_of d)) = Ok (dl_ce d);
  ag_sig : cr_sign C (dl_sg d) (dl_key d) (certificate_verify_server ++ cr_hash C (dl_h d) (m_ce d)) = Ok (dl_sig d);
  ag_cv : ser_content C (KHandshake (cv_of d)) = Ok (dl_cv d);
  ag_sf : ser_content C (KHandshake (HFinished (dl_fs d))) = Ok (dl_sf d);
  ag_cf : ser_content C (KHandshake (HFinished (dl_fc d))) = Ok (dl_cf d);
  ag_mk : mk_client_hello (dl_cu d) (g_suites (dl_gc d)) (c_exts C d) = Ok (ch_of C d);
  ag_pch : forall p, parse_content C p CT_HANDSHAKE (dl_ch d) = Ok (KHandshake (ch_of C d));
  ag_psh : forall p, parse_content C p CT_HANDSHAKE (dl_sh d) = Ok (KHandshake (sh_of d));
  ag_pee : forall p, parse_content C p CT_HANDSHAKE (dl_ee d) = Ok (KHandshake (ee_of d));
  ag_pce : parse_content C (Some (Some CT_X509)) CT_HANDSHAKE (dl_ce d) = Ok (KHandshake (ce_of d));
  ag_pcv : forall p, parse_content C p CT_HANDSHAKE (dl_cv d) = Ok (KHandshake (cv_of d));
  ag_psf : forall p, parse_content C p CT_HANDSHAKE (dl_sf d) = Ok (KHandshake (HFinished (dl_fs d)));
  ag_pcf : forall p, parse_content C p CT_HANDSHAKE (dl_cf d) = Ok (KHandshake (HFinished (dl_fc d)));
  ag_check : require_peer_auth (dl_gc d) = true ->
    client_check_x509 C (dl_gc d) (dl_host d) (dl_cocsp d) (entries_of (dl_leaf d) (dl_rest d) (dl_st d)) = Ok tt;
  ag_sgc : memN (dl_sg d) (g_sigalgs (dl_gc d)) = true;
  ag_verify : suite_verify C (dl_sg d) (cr_cert_pubkey C (dl_leaf d)) (dl_sig d) (certificate_verify_server ++ cr_hash C (dl_h d) (m_ce d)) = Ok tt;
  ag_small : blen (dl_sh d) <= 4096 /\ blen (dl_ee d) <= 4000;
  ag_sizes : blen (dl_ee d) <= 16366 /\ blen (dl_ce d) <= 16366 /\ blen (dl_cv d) <= 16366 /\ blen (dl_sf d) <= 16366 /\ blen (dl_cf d) <= 16366 }.

Section server.
Variables (C : crypto) (d : deal).
Hypothesis A : agreed C d.
Hypothesis As : aead_sized C.
Variables x1 x2 : cs.
Hypothesis Hx1 : skip_early_secrets C (cs_new 0 0 (dl_suite d) Server) = (Ok tt, x1).
Hypothesis Hs1 : cs_suite x1 = dl_suite d.
Hypothesis Hx2 : derive_handshake_secrets C (dl_z d) (cr_hash C (dl_h d) (m_sh d)) x1 = (Ok tt, x2).
Hypothesis Hplain : must_encrypt x1 = false.
Hypothesis Hready : ready (cs_w x2) /\ ready (cs_w (bump_w x2)) /\ ready (cs_w (bump_w (bump_w x2))) /\ ready (cs_w (bump_w (bump_w (bump_w x2)))).
Hypothesis Hfin : sign_finish C (cr_hash C (dl_h d) (m_cv d)) (bump_w (bump_w (bump_w x2))) = Ok (dl_fs d).

Definition x3 := bump_w (bump_w (bump_w (bump_w x2))).
Definition server_nc (mode : N) : nconfig :=
  nset_want_ocsp (nset_echo_hb (nset_send_hb (nset_alpn (nset_mfl (nset_sct (nset_group (nset_suite (nconfig_new None) (Some (dl_suite d)))
    (Some (dl_group d))) (Some CT_X509)) (Some (g_mfl (dl_gs d)))) (Some (dl_al d))) (Some (mode =? PEER_ALLOWED_TO_SEND)))
    (Some (g_echo (dl_gs d)))) (Some (opt_bool (g_trust (dl_gc d)))).
Definition server_out : bytes :=
  plain_wire 16384 (dl_sh d) ++ ccs_record ++ hs_record C 16384 x2 (dl_ee d) ++ hs_record C 16384 (bump_w x2) (dl_ce d)
  ++ hs_record C 16384 (bump_w (bump_w x2)) (dl_cv d) ++ hs_record C 16384 (bump_w (bump_w (bump_w x2))) (dl_sf d).

Lemma negociate_ok c n : c_config c = dl_gs d -> c_nc c = Some n -> n_suite n = Some (dl_suite d) -> n = nset_suite (nconfig_new None) (Some (dl_suite d)) ->
  c_rng c = dl_srng d -> c_rngi c = 0 ->
  server_negociate C (c_exts C d) c =
    (Ok ([ESupVersionsResp TLS_1_3; EKeyShareResp (dl_group d) (dl_pb d)],
         match dl_al d with Some p => [EAlpn [p]] | None => [] end ++ [EHeartbeat (heartbeat_mode (dl_gs d))], Some (dl_z d)),
     cset_nc (Some (server_nc (heartbeat_mode (dl_gc d)))) (cset_rngi 1 (cset_sig (Some (dl_sg d)) c))).
Proof.
  intros Hg Hn _ Hne Hr Hi. destruct c as [g host oc nc ci sg tr i ih o ap cu su stt rng ri lg hs]. cbn [c_config c_nc c_rng c_rngi] in *. subst g nc rng ri.
  pose proof (fun ty => ce_get C (dl_gc d) (dl_host d) (dl_group d) (dl_pa d) (ag_pub _ _ A) (ag_tkc _ _ A) ty) as E.
  fold (c_exts C d) in E.
  pose proof (E SUPPORTED_VERSIONS : _ = Some (ESupVersionsReq [TLS_1_3])) as E1.
  pose proof (E SIGNATURE_ALGORITHMS : _ = Some (ESigAlgs (g_sigalgs (dl_gc d)))) as E2.
  pose proof (E SUPPORTED_GROUPS : _ = Some (ESupportedGroups (g_groups (dl_gc d)))) as E3.
  pose proof (E HEARTBEAT : _ = Some (EHeartbeat (heartbeat_mode (dl_gc d)))) as E4.
  pose proof (E ALPN : _ = if negb (is_nil (g_alpn (dl_gc d))) then Some (EAlpn (g_alpn (dl_gc d))) else None) as E5.
  pose proof (E STATUS_REQUEST : _ = if opt_bool (g_trust (dl_gc d)) then Some (EStatusReq [] []) else None) as E6.
  pose proof (E KEY_SHARE : _ = Some (EKeyShareReq [(dl_group d, dl_pa d)])) as E7.
  pose proof (E CLIENT_CERTIFICATE_TYPE : _ = None) as E8.
  pose proof (E SERVER_CERTIFICATE_TYPE : _ = None) as E9.
  pose proof (E MAX_FRAGMENT_LENGTH : _ = None) as E10.
  unfold server_negociate, server_neg_versions, server_neg_groups, server_neg_sigalgs, server_neg_key_share.
  rewrite E1, E2, E3, E7. change (memN TLS_1_3 [TLS_1_3]) with true. go. rewrite (ag_group _ _ A). go.
  rewrite (ag_chain _ _ A). destruct (ag_algs _ _ A) as (l & -> & El). go. rewrite El. go.
  cbn [assocN]. rewrite N.eqb_refl. go. rewrite (ag_named _ _ A). go. rewrite (ag_kxb _ _ A). go. rewrite (ag_kxz' _ _ A). go.
  destruct (dl_z d) as [|z0 z] eqn:Ez; [destruct (ag_z _ _ A Ez)|].
  unfold server_neg_cct, server_neg_sct, server_neg_mfl, server_neg_heartbeat, server_neg_status.
  rewrite E4, E6, E9, E10. go.
  assert (Rp : require_peer_auth (dl_gs d) = false) by (unfold require_peer_auth; rewrite (ag_trs _ _ A), (ag_tks _ _ A); reflexivity).
  rewrite Rp. go.
  assert (Fc : first_common (certificate_types (dl_gs d)) [CT_X509] = Some CT_X509).
  { unfold certificate_types, has_chain. rewrite (ag_chain _ _ A). reflexivity. }
  rewrite Fc. go.
  unfold server_neg_alpn. rewrite E5. pose proof (ag_alpn _ _ A) as Al. unfold server_nc. subst n.
  destruct (dl_al d) as [p|].
  - destruct Al as (A1 & A2 & A3 & A4). rewrite A1. go. rewrite A2. go. rewrite A3. go. destruct (g_trust (dl_gc d)); reflexivity.
  - destruct (is_nil (g_alpn (dl_gc d))) eqn:A1; go.
    + destruct (g_trust (dl_gc d)); reflexivity.
    + destruct Al as [Al|Al]; [discriminate|]. rewrite Al. go. destruct (g_trust (dl_gc d)); reflexivity.
Qed.

Lemma cert_list_ok c n : c_config c = dl_gs d -> c_ocsp c = dl_socsp d -> c_nc c = Some n -> n_sct n = Some CT_X509 ->
  n_want_ocsp n = Some (opt_bool (g_trust (dl_gc d))) -> server_certificate_list C c = Ok (entries_of (dl_leaf d) (dl_rest d) (dl_st d)).
Proof.
  intros Hg Ho Hn Hsc Hw. unfold server_certificate_list. rewrite Hn, Hsc. change (CT_X509 =? CT_RAW_PUBLIC_KEY) with false. cbv iota.
  rewrite Hg, (ag_chain _ _ A). cbn [map]. rewrite (ag_staple _ _ A) by assumption. reflexivity.
Qed.

Lemma server_flight hashes inp lg hs :
  find (fun p => hashalg_eqb (fst p) (dl_h d)) hashes = Some (dl_h d, dl_ch d) ->
  exists lg' hs', length lg' = (4 + length lg)%nat /\
  process C (KHandshake (ch_of C d))
    (mkConn (dl_gs d) None (dl_socsp d) None None None (mkTr hashes 2) inp [] [] [] None (Some (dl_su d)) (ServerWaitClientHello true) (dl_srng d) 0 lg hs) =
  (Ok tt, mkConn (dl_gs d) None (dl_socsp d) (Some (server_nc (heartbeat_mode (dl_gc d)))) (Some x3) (Some (dl_sg d)) (mkTr [(dl_h d, m_sf d)] 8) inp [] server_out []
            (Some (dl_cu d)) (Some (dl_su d)) (ServerWaitFinished (cr_hash C (dl_h d) (m_sf d))) (dl_srng d) 1 lg' hs').
Proof.
  intro Hf. do 2 eexists. split; [|unfold process; go].
  2:{  unfold process_wait_ch, ch_of. go. unfold server_setup. go.
  rewrite (ag_suite _ _ A). go. rewrite (ag_hash _ _ A). go. unfold tr_post_init. go. rewrite Hf. go.
  rewrite (negociate_ok _ (nset_suite (nconfig_new None) (Some (dl_suite d)))) by reflexivity. go.
  unfold server_send_hello. go.
  match goal with |- context [skip_early_secrets C ?x] => change x with (cs_new 0 0 (dl_suite d) Server) end. rewrite Hx1. go.
  rewrite Hs1. change (ext_dict [ESupVersionsResp TLS_1_3; EKeyShareResp (dl_group d) (dl_pb d)]) with [ESupVersionsResp TLS_1_3; EKeyShareResp (dl_group d) (dl_pb d)].
  fold (sh_of d).
  rewrite (send_plain16 C (sh_of d) SERVER_HELLO (dl_sh d) (mkTr [(dl_h d, m_sh d)] 3)); [|exact Hplain | reflexivity | exact (ag_mfls _ _ A) | reflexivity | exact (ag_sh _ _ A) | go; rewrite (ag_gs _ _ A); reflexivity].
  go. rewrite send_ccs16; [|exact Hplain | reflexivity | exact (ag_mfls _ _ A)]. go. rewrite Hx2. go.
  assert (Ed : ext_dict (match dl_al d with Some p => [EAlpn [p]] | None => [] end ++ [EHeartbeat (heartbeat_mode (dl_gs d))]) =
    match dl_al d with Some p => [EAlpn [p]] | None => [] end ++ [EHeartbeat (heartbeat_mode (dl_gs d))]) by (destruct (dl_al d); reflexivity).
  rewrite Ed. clear Ed. fold (ee_of d). destruct Hready as (R1 & R2 & R3 & R4). destruct (ag_sizes _ _ A) as (L1 & L2 & L3 & L4 & _).
  rewrite (send_sealed16 C (ee_of d) ENCRYPTED_EXTENSIONS (dl_ee d) (mkTr [(dl_h d, m_ee d)] 4) _ x2 As); [|exact (ag_mfls _ _ A) | reflexivity | exact R1 | reflexivity | exact L1 | reflexivity | exact (ag_ee _ _ A) | go; rewrite (ag_gs _ _ A); reflexivity].
  go. assert (Rp : require_peer_auth (dl_gs d) = false) by (unfold require_peer_auth; rewrite (ag_trs _ _ A), (ag_tks _ _ A); reflexivity).
  rewrite Rp. go. unfold server_send_certificate. go.
  rewrite (cert_list_ok (mkConn _ _ _ _ _ _ _ _ _ _ _ _ _ _ _ _ _ _) (server_nc (heartbeat_mode (dl_gc d)))) by reflexivity. go.
  fold (ce_of d).
  rewrite (send_sealed16 C (ce_of d) CERTIFICATE (dl_ce d) (mkTr [(dl_h d, m_ce d)] 6) _ (bump_w x2) As); [|exact (ag_mfls _ _ A) | reflexivity | exact R2 | reflexivity | exact L2 | reflexivity | exact (ag_ce _ _ A) | go; rewrite (ag_gs _ _ A); reflexivity].
  go. rewrite (ag_key _ _ A). go. rewrite (ag_sig _ _ A). go. fold (cv_of d).
  rewrite (send_sealed16 C (cv_of d) CERTIFICATE_VERIFY (dl_cv d) (mkTr [(dl_h d, m_cv d)] 7) _ (bump_w (bump_w x2)) As); [|exact (ag_mfls _ _ A) | reflexivity | exact R3 | reflexivity | exact L3 | reflexivity | exact (ag_cv _ _ A) | go; rewrite (ag_gs _ _ A); reflexivity].
  go. rewrite Hfin. go.
  rewrite (send_sealed16 C (HFinished (dl_fs d)) FINISHED (dl_sf d) (mkTr [(dl_h d, m_sf d)] 8) _ (bump_w (bump_w (bump_w x2))) As); [|exact (ag_mfls _ _ A) | reflexivity | exact R4 | reflexivity | exact L4 | reflexivity | exact (ag_sf _ _ A) | go; rewrite (ag_gs _ _ A); reflexivity].
  go. rewrite Rp. go. do 2 f_equal. cbn [app]. unfold server_out. rewrite <- !app_assoc. reflexivity. }
  reflexivity.
Qed.
End server.
