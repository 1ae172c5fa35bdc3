From Verif Require Import Base Iana Crypto Config Ext Msg Cipher Kex Sig Ocsp Transcript Conn S_Hist S_Conn S_Send S_Codec S_Honest P_Base P_Tr P_Send P_Deliver P_Split P_Honest P_Honest2 P_Honest3 P_Honest4 P_Honest5.

Lemma find_fed h data l : find (fun p => hashalg_eqb (fst p) h) (map (fun p : hashalg * bytes => (fst p, snd p ++ data)) l) =
  option_map (fun p => (fst p, snd p ++ data)) (find (fun p => hashalg_eqb (fst p) h) l).
Proof. induction l as [|p l IH]; [reflexivity|]. cbn [map find fst]. destruct (hashalg_eqb (fst p) h); [reflexivity | exact IH]. Qed.
Lemma skip_hs C mfl x data rest : skip_ccs (hs_record C mfl x data ++ rest) = hs_record C mfl x data ++ rest.
Proof. reflexivity. Qed.
Lemma skip_ccs_hs' C mfl x data rest : skip_ccs (ccs_record ++ hs_record C mfl x data ++ rest) = hs_record C mfl x data ++ rest.
Proof. reflexivity. Qed.

Section client.
Variables (C : crypto) (d : deal).
Hypothesis A : agreed C d.
Hypothesis As : aead_sized C.
Hypothesis AC : aead_correct C.
(* the cipher objects of the client, and the one of the server *)
Variables x1 x2 xs x5 : cs.
Variable v5 : bytes * bytes.
Hypothesis Hx1 : skip_early_secrets C (cs_new 0 0 (dl_suite d) Client) = (Ok tt, x1).
Hypothesis Hx2 : derive_handshake_secrets C (dl_z d) (cr_hash C (dl_h d) (m_sh d)) x1 = (Ok tt, x2).
Hypothesis Hdec : forall n, must_decrypt (Nat.iter n bump_r x2) = true.
Let y4 := bump_r (bump_r (bump_r (bump_r x2))).
Hypothesis Hmir : mirrored xs x2.
Hypothesis Hready : forall n, (n < 4)%nat -> ready (cs_w (Nat.iter n bump_w xs)).
Hypothesis Hready' : ready (cs_w y4).
Hypothesis Hvf : verify_finish C (cr_hash C (dl_h d) (m_cv d)) (dl_fs d) y4 = Ok tt.
Hypothesis Hsf : sign_finish C (cr_hash C (dl_h d) (m_sf d)) y4 = Ok (dl_fc d).
Hypothesis Hx5 : derive_master_secrets C (cr_hash C (dl_h d) (m_sf d)) (cr_hash C (dl_h d) (m_cf d)) (bump_w y4) = (Ok v5, x5).

Definition c_start hashes := mkConn (dl_gc d) (dl_host d) (dl_cocsp d) None None None (mkTr hashes 1) [] [] [] [] (Some (dl_cu d)) None (ClientStart None) (dl_crng d) 0 [] [].
Definition c_wait hashes h0 inp out := mkConn (dl_gc d) (dl_host d) (dl_cocsp d) None None None (mkTr hashes 2) inp [] out [] (Some (dl_cu d)) None
  (ClientWaitServerHello true [(dl_group d, dl_crng d 0)] h0) (dl_crng d) 1 [] [(Client, CLIENT_HELLO, dl_ch d)].

Lemma client_starts h hashes : exists h0,
  initiate_connection C (c_start ((h, []) :: hashes)) =
  (Ok tt, c_wait (map (fun p => (fst p, snd p ++ dl_ch d)) ((h, []) :: hashes)) h0 [] (plain_wire (g_mfl (dl_gc d)) (dl_ch d))).
Proof.
  eexists. unfold initiate_connection, c_start. go. unfold client_initiate. go. destruct (ag_share _ _ A) as (l & ->). go.
  rewrite (ag_kxa _ _ A). go. fold (c_exts C d). rewrite (ag_mk _ _ A). go.
  rewrite (send_plainm C (ch_of C d) CLIENT_HELLO (dl_ch d) (mkTr (map (fun p => (fst p, snd p ++ dl_ch d)) ((h, []) :: hashes)) 2) _ (g_mfl (dl_gc d)));
    [|reflexivity | reflexivity | reflexivity | exact (ag_mflc _ _ A) | reflexivity | exact (ag_ch _ _ A) | go; rewrite (ag_gc _ _ A); reflexivity].
  go. cbn [map fst snd app]. rewrite (ag_gc _ _ A). reflexivity.
Qed.

Definition nc1 := nconfig_new (Some (dl_suite d)).
Lemma client_sh hashes h0 inp :
  find (fun p => hashalg_eqb (fst p) (dl_h d)) hashes = Some (dl_h d, dl_ch d) ->
  process C (KHandshake (sh_of d)) (heard_of (c_wait hashes h0 inp []) SERVER_HELLO (dl_sh d) (mkTr (map (fun p => (fst p, snd p ++ dl_sh d)) hashes) 3)) =
  (Ok tt, mkConn (dl_gc d) (dl_host d) (dl_cocsp d) (Some nc1) (Some x2) None (mkTr [(dl_h d, m_sh d)] 3) inp [] ccs_record []
            (Some (dl_cu d)) (Some (dl_su d)) ClientWaitEncryptedExtensions (dl_crng d) 1 [] [(Client, CLIENT_HELLO, dl_ch d); (Server, SERVER_HELLO, dl_sh d)]).
Proof.
  intro Hf. unfold process, c_wait. go. unfold process_wait_sh, sh_of. go. rewrite (ag_suitec _ _ A). go. rewrite (ag_hash _ _ A). go.
  unfold tr_post_init. go. rewrite find_fed, Hf. cbn [option_map fst snd]. go.
  rewrite (send_ccsm _ _ (g_mfl (dl_gc d))); [|reflexivity | reflexivity | reflexivity | exact (ag_mflc _ _ A)]. go. unfold client_process_sh. go.
  unfold client_negociate_hello.
  change (ext_get SUPPORTED_VERSIONS [ESupVersionsResp TLS_1_3; EKeyShareResp (dl_group d) (dl_pb d)]) with (Some (ESupVersionsResp TLS_1_3)).
  change (ext_get KEY_SHARE [ESupVersionsResp TLS_1_3; EKeyShareResp (dl_group d) (dl_pb d)]) with (Some (EKeyShareResp (dl_group d) (dl_pb d))).
  cbv beta iota. change (TLS_1_3 =? TLS_1_3) with true. go. cbn [assocN]. rewrite (N.eqb_refl (dl_group d)). go. rewrite (ag_kxz _ _ A). go.
  match goal with |- context [skip_early_secrets C ?x] => change x with (cs_new 0 0 (dl_suite d) Client) end. rewrite Hx1. go. fold (m_sh d). rewrite Hx2. go. rewrite (ag_gc _ _ A). reflexivity.
Qed.

Definition nc2 := nset_sct (nset_cct (nset_echo_hb (nset_send_hb (nset_alpn (nset_mfl nc1 (Some 16384)) (Some (dl_al d)))
  (Some (heartbeat_mode (dl_gs d) =? PEER_ALLOWED_TO_SEND))) (Some (g_echo (dl_gc d)))) (Some CT_X509)) (Some CT_X509).
Lemma client_ee x inp out lg hs :
  process C (KHandshake (ee_of d))
    (mkConn (dl_gc d) (dl_host d) (dl_cocsp d) (Some nc1) x None (mkTr [(dl_h d, m_ee d)] 4) inp [] out []
       (Some (dl_cu d)) (Some (dl_su d)) ClientWaitEncryptedExtensions (dl_crng d) 1 lg hs) =
  (Ok tt, mkConn (dl_gc d) (dl_host d) (dl_cocsp d) (Some nc2) x None (mkTr [(dl_h d, m_ee d)] 4) inp [] out []
       (Some (dl_cu d)) (Some (dl_su d)) ClientWaitCertCr (dl_crng d) 1 lg hs).
Proof.
  unfold process. go. unfold process_wait_ee, ee_of, client_neg_mfl, client_neg_alpn, client_neg_heartbeat, client_neg_cct, client_neg_sct.
  pose proof (ag_alpn _ _ A) as Al. unfold nc2, nc1. destruct (dl_al d) as [p|].
  - destruct Al as (_ & _ & _ & A4).
    change (ext_get ?t ([EAlpn [p]] ++ [EHeartbeat ?m])) with (ext_get t [EAlpn [p]; EHeartbeat m]).
    set (m := heartbeat_mode (dl_gs d)).
    change (ext_get MAX_FRAGMENT_LENGTH [EAlpn [p]; EHeartbeat m]) with (@None Ext.ext).
    change (ext_get ALPN [EAlpn [p]; EHeartbeat m]) with (Some (EAlpn [p])).
    change (ext_get HEARTBEAT [EAlpn [p]; EHeartbeat m]) with (Some (EHeartbeat m)).
    change (ext_get CLIENT_CERTIFICATE_TYPE [EAlpn [p]; EHeartbeat m]) with (@None Ext.ext).
    change (ext_get SERVER_CERTIFICATE_TYPE [EAlpn [p]; EHeartbeat m]) with (@None Ext.ext).
    go. rewrite A4. go. reflexivity.
  - set (m := heartbeat_mode (dl_gs d)). cbn [app].
    change (ext_get MAX_FRAGMENT_LENGTH [EHeartbeat m]) with (@None Ext.ext).
    change (ext_get ALPN [EHeartbeat m]) with (@None Ext.ext).
    change (ext_get HEARTBEAT [EHeartbeat m]) with (Some (EHeartbeat m)).
    change (ext_get CLIENT_CERTIFICATE_TYPE [EHeartbeat m]) with (@None Ext.ext).
    change (ext_get SERVER_CERTIFICATE_TYPE [EHeartbeat m]) with (@None Ext.ext).
    go. reflexivity.
Qed.

Definition nc3 := nset_peer_cert nc2 (Some (dl_leaf d)).
Lemma client_ce x inp out lg hs :
  process C (KHandshake (ce_of d))
    (mkConn (dl_gc d) (dl_host d) (dl_cocsp d) (Some nc2) x None (mkTr [(dl_h d, m_ce d)] 6) inp [] out []
       (Some (dl_cu d)) (Some (dl_su d)) ClientWaitCertCr (dl_crng d) 1 lg hs) =
  (Ok tt, mkConn (dl_gc d) (dl_host d) (dl_cocsp d) (Some nc3) x None (mkTr [(dl_h d, m_ce d)] 6) inp [] out []
       (Some (dl_cu d)) (Some (dl_su d)) (ClientWaitCertificateVerify false (cr_hash C (dl_h d) (m_ce d))) (dl_crng d) 1 lg hs).
Proof.
  unfold process. go. unfold process_wait_cert_cr, ce_of. go. unfold process_wait_certificate. go.
  change (is_nil (entries_of (dl_leaf d) (dl_rest d) (dl_st d))) with false. rewrite andb_false_r. go.
  assert (T : existsb (fun e => negb (en_type e =? CT_X509)) (entries_of (dl_leaf d) (dl_rest d) (dl_st d)) = false).
  { unfold entries_of. cbn [existsb en_type]. change (negb (CT_X509 =? CT_X509)) with false. cbn [orb].
    induction (dl_rest d) as [|c l IH]; [reflexivity|]. cbn [map existsb en_type]. exact IH. }
  unfold nc2, nc1. go. change (existsb _ (entries_of (dl_leaf d) (dl_rest d) (dl_st d))) with (existsb (fun e => negb (en_type e =? CT_X509)) (entries_of (dl_leaf d) (dl_rest d) (dl_st d))).
  rewrite T. change (CT_X509 =? CT_X509) with true. unfold entries_of at 1. go. cbn [en_data].
  destruct (require_peer_auth (dl_gc d)) eqn:Rp; go; [rewrite (ag_check _ _ A Rp); go|]; reflexivity.
Qed.

Definition nc4 := nset_sigalg nc3 (Some (dl_sg d)).
Lemma client_cv x inp out lg hs :
  process C (KHandshake (cv_of d))
    (mkConn (dl_gc d) (dl_host d) (dl_cocsp d) (Some nc3) x None (mkTr [(dl_h d, m_cv d)] 7) inp [] out []
       (Some (dl_cu d)) (Some (dl_su d)) (ClientWaitCertificateVerify false (cr_hash C (dl_h d) (m_ce d))) (dl_crng d) 1 lg hs) =
  (Ok tt, mkConn (dl_gc d) (dl_host d) (dl_cocsp d) (Some nc4) x None (mkTr [(dl_h d, m_cv d)] 7) inp [] out []
       (Some (dl_cu d)) (Some (dl_su d)) (ClientWaitFinished false (cr_hash C (dl_h d) (m_cv d))) (dl_crng d) 1 lg hs).
Proof.
  unfold process. go. unfold process_wait_cv, cv_of. go. rewrite (ag_sgc _ _ A). go. unfold nc3, nc2, nc1. go. cbn [option_map].
  rewrite (ag_verify _ _ A). go. reflexivity.
Qed.

Lemma client_fin inp out lg hs : exists lg' hs', length lg' = (1 + length lg)%nat /\
  process C (KHandshake (HFinished (dl_fs d)))
    (mkConn (dl_gc d) (dl_host d) (dl_cocsp d) (Some nc4) (Some y4) None (mkTr [(dl_h d, m_sf d)] 8) inp [] out []
       (Some (dl_cu d)) (Some (dl_su d)) (ClientWaitFinished false (cr_hash C (dl_h d) (m_cv d))) (dl_crng d) 1 lg hs) =
  (Ok tt, mkConn (dl_gc d) (dl_host d) (dl_cocsp d) (Some nc4) (Some x5) None (mkTr [(dl_h d, m_cf d)] 12) inp [] (out ++ hs_record C 16384 y4 (dl_cf d)) []
       (Some (dl_cu d)) (Some (dl_su d)) Connected (dl_crng d) 1 lg' hs').
Proof.
  do 2 eexists. split; [|unfold process; go].
  2:{ unfold process_client_finished. go. rewrite Hvf. go. rewrite Hsf. go.
  destruct (ag_sizes _ _ A) as (_ & _ & _ & _ & L).
  rewrite (send_sealed16 C (HFinished (dl_fc d)) FINISHED (dl_cf d) (mkTr [(dl_h d, m_cf d)] 12) _ y4 As); [|reflexivity | reflexivity | exact Hready' | reflexivity | exact L | reflexivity | exact (ag_cf _ _ A) | go; rewrite (ag_gc _ _ A); reflexivity].
  go. rewrite Hx5. go. reflexivity. }
  reflexivity.
Qed.

Lemma read_sealed16 c y x data rest h : skip_ccs (c_in c) = hs_record C 16384 x data ++ rest -> c_cipher c = Some y -> dec_on c = true ->
  c_inhs c = [] -> max_frag c = 16384 -> ser_content C (KHandshake h) = Ok data -> blen data <= 16366 -> ready (cs_w x) -> mirrored x y ->
  read_next_content C c = (Ok (Some (CT_HANDSHAKE, data)), cset_cipher (Some (bump_r y)) (cset_in rest c)).
Proof.
  intros Hc Hy Hd Hi Hm Hs L R Mi. destruct (ser_hs_head _ _ _ Hs) as [L4 Hl].
  apply (read_sealed C c y x 16384 data rest AC As Hc Hy Hd Hi valid16); try assumption; [|rewrite Hm; lia].
  pose proof (tag_le (cs_suite x)). lia.
Qed.

Lemma read_sealed4 c y x data rest h : skip_ccs (c_in c) = hs_record C 16384 x data ++ rest -> c_cipher c = Some y -> dec_on c = true ->
  c_inhs c = [] -> 4096 <= max_frag c -> ser_content C (KHandshake h) = Ok data -> blen data <= 4000 -> ready (cs_w x) -> mirrored x y ->
  read_next_content C c = (Ok (Some (CT_HANDSHAKE, data)), cset_cipher (Some (bump_r y)) (cset_in rest c)).
Proof.
  intros Hc Hy Hd Hi Hm Hs L R Mi. destruct (ser_hs_head _ _ _ Hs) as [L4 Hl].
  assert (V : valid_mfl 4096) by (unfold valid_mfl; cbn; auto 6).
  change (hs_record C 16384 x data) with (hs_record C 4096 x data) in Hc.
  apply (read_sealed C c y x 4096 data rest AC As Hc Hy Hd Hi V); try assumption.
  pose proof (tag_le (cs_suite x)). lia.
Qed.

Lemma client_receives hashes h0 :
  find (fun p => hashalg_eqb (fst p) (dl_h d)) hashes = Some (dl_h d, dl_ch d) ->
  exists lg hs, length lg = 1%nat /\ loops C (c_wait hashes h0 (server_out C d xs) [])
    (Ok tt, mkConn (dl_gc d) (dl_host d) (dl_cocsp d) (Some nc4) (Some x5) None (mkTr [(dl_h d, m_cf d)] 12) [] [] (ccs_record ++ hs_record C 16384 y4 (dl_cf d)) []
       (Some (dl_cu d)) (Some (dl_su d)) Connected (dl_crng d) 1 lg hs).
Proof.
  intro Hf. destruct (ag_sizes _ _ A) as (L1 & L2 & L3 & L4 & L5). destruct (ag_small _ _ A) as [K1 K2].
  pose proof (mirrored_bump _ _ Hmir) as M1. pose proof (mirrored_bump _ _ M1) as M2. pose proof (mirrored_bump _ _ M2) as M3.
  pose proof (ser_hs_head _ _ _ (ag_sh _ _ A)) as [Lh Hh].
  set (r3 := hs_record C 16384 (bump_w (bump_w (bump_w xs))) (dl_sf d)).
  set (r2 := hs_record C 16384 (bump_w (bump_w xs)) (dl_cv d)).
  set (r1 := hs_record C 16384 (bump_w xs) (dl_ce d)).
  set (r0 := hs_record C 16384 xs (dl_ee d)).
  pose proof (client_fin [] ccs_record [] ([] ++ [])) as F.
  set (hs4 := [(Client, CLIENT_HELLO, dl_ch d); (Server, SERVER_HELLO, dl_sh d); (Server, ENCRYPTED_EXTENSIONS, dl_ee d); (Server, CERTIFICATE, dl_ce d);
    (Server, CERTIFICATE_VERIFY, dl_cv d); (Server, FINISHED, dl_sf d)]).
  destruct (client_fin [] ccs_record [] hs4) as (lg & hs & Ll & F6). clear F. exists lg, hs. split; [exact Ll|].
  assert (Dn : forall n (c : conn), c_cipher c = Some (Nat.iter n bump_r x2) -> dec_on c = true).
  { intros n c E. unfold dec_on. rewrite E. apply Hdec. }
  eapply loops_more.
  { eapply (one_message C _ _ (dl_sh d) (sh_of d) SERVER_HELLO (mkTr (map (fun p => (fst p, snd p ++ dl_sh d)) hashes) 3)).
    - apply (read_plain C _ 4096 (dl_sh d) (ccs_record ++ r0 ++ r1 ++ r2 ++ r3)); [reflexivity | lia | | reflexivity | exact Lh | exact Hh | rewrite (plain_small 4096 16384) by lia; reflexivity].
      change (max_frag (c_wait hashes h0 (server_out C d xs) [])) with (g_mfl (dl_gc d)). pose proof (ag_mflc _ _ A). lia.
    - apply (ag_psh _ _ A).
    - reflexivity.
    - cbn [c_config cset_in c_wait c_tr]. rewrite (ag_gc _ _ A). reflexivity.
    - exact (client_sh hashes h0 (ccs_record ++ r0 ++ r1 ++ r2 ++ r3) Hf). }
  eapply loops_more.
  { eapply (one_message C _ _ (dl_ee d) (ee_of d) ENCRYPTED_EXTENSIONS (mkTr [(dl_h d, m_ee d)] 4)).
    - apply (read_sealed4 _ x2 xs (dl_ee d) (r1 ++ r2 ++ r3) (ee_of d)); [reflexivity | reflexivity | apply (Dn 0%nat); reflexivity | reflexivity | exact (proj1 (ag_mflc _ _ A)) | exact (ag_ee _ _ A) | exact K2 | apply (Hready 0); lia | exact Hmir].
    - apply (ag_pee _ _ A).
    - reflexivity.
    - cbn [c_config cset_in cset_cipher c_tr]. rewrite (ag_gc _ _ A). reflexivity.
    - unfold heard_of. cbn [c_config cset_in cset_cipher]. rewrite (ag_gc _ _ A). apply client_ee. }
  eapply loops_more.
  { eapply (one_message C _ _ (dl_ce d) (ce_of d) CERTIFICATE (mkTr [(dl_h d, m_ce d)] 6)).
    - apply (read_sealed16 _ (bump_r x2) (bump_w xs) (dl_ce d) (r2 ++ r3) (ce_of d)); [reflexivity | reflexivity | apply (Dn 1%nat); reflexivity | reflexivity | reflexivity | exact (ag_ce _ _ A) | exact L2 | apply (Hready 1); lia | exact M1].
    - change (peer_cert_type _) with (Some (match g_side (dl_gc d) with Server => n_cct nc2 | Client => n_sct nc2 end)). rewrite (ag_gc _ _ A). apply (ag_pce _ _ A).
    - reflexivity.
    - cbn [c_config cset_in cset_cipher c_tr]. rewrite (ag_gc _ _ A). reflexivity.
    - unfold heard_of. cbn [c_config cset_in cset_cipher]. rewrite (ag_gc _ _ A). apply client_ce. }
  eapply loops_more.
  { eapply (one_message C _ _ (dl_cv d) (cv_of d) CERTIFICATE_VERIFY (mkTr [(dl_h d, m_cv d)] 7)).
    - apply (read_sealed16 _ (bump_r (bump_r x2)) (bump_w (bump_w xs)) (dl_cv d) r3 (cv_of d)); [reflexivity | reflexivity | apply (Dn 2%nat); reflexivity | reflexivity | reflexivity | exact (ag_cv _ _ A) | exact L3 | apply (Hready 2); lia | exact M2].
    - apply (ag_pcv _ _ A).
    - reflexivity.
    - cbn [c_config cset_in cset_cipher c_tr]. rewrite (ag_gc _ _ A). reflexivity.
    - unfold heard_of. cbn [c_config cset_in cset_cipher]. rewrite (ag_gc _ _ A). apply client_cv. }
  eapply loops_more.
  { eapply (one_message C _ _ (dl_sf d) (HFinished (dl_fs d)) FINISHED (mkTr [(dl_h d, m_sf d)] 8)).
    - apply (read_sealed16 _ (bump_r (bump_r (bump_r x2))) (bump_w (bump_w (bump_w xs))) (dl_sf d) [] (HFinished (dl_fs d))); [cbn [c_in]; rewrite app_nil_r; reflexivity | reflexivity | apply (Dn 3%nat); reflexivity | reflexivity | reflexivity | exact (ag_sf _ _ A) | exact L4 | apply (Hready 3); lia | exact M3].
    - apply (ag_psf _ _ A).
    - reflexivity.
    - cbn [c_config cset_in cset_cipher c_tr]. rewrite (ag_gc _ _ A). reflexivity.
    - unfold heard_of. cbn [c_config cset_in cset_cipher]. rewrite (ag_gc _ _ A). exact F6. }
  apply loops_stop. apply read_empty. reflexivity.
Qed.

(* all but the last message *)
Definition server_most : bytes := plain_wire 16384 (dl_sh d) ++ ccs_record ++ hs_record C 16384 xs (dl_ee d) ++ hs_record C 16384 (bump_w xs) (dl_ce d)
  ++ hs_record C 16384 (bump_w (bump_w xs)) (dl_cv d).
Definition c_mid inp := mkConn (dl_gc d) (dl_host d) (dl_cocsp d) (Some nc4) (Some (bump_r (bump_r (bump_r x2)))) None (mkTr [(dl_h d, m_cv d)] 7) inp [] ccs_record []
  (Some (dl_cu d)) (Some (dl_su d)) (ClientWaitFinished false (cr_hash C (dl_h d) (m_cv d))) (dl_crng d) 1 []
  [(Client, CLIENT_HELLO, dl_ch d); (Server, SERVER_HELLO, dl_sh d); (Server, ENCRYPTED_EXTENSIONS, dl_ee d); (Server, CERTIFICATE, dl_ce d); (Server, CERTIFICATE_VERIFY, dl_cv d)].
Lemma server_out_most : server_out C d xs = server_most ++ hs_record C 16384 (bump_w (bump_w (bump_w xs))) (dl_sf d).
Proof. unfold server_out, server_most. rewrite <- !app_assoc. reflexivity. Qed.
Lemma client_most hashes h0 :
  find (fun p => hashalg_eqb (fst p) (dl_h d)) hashes = Some (dl_h d, dl_ch d) ->
  loops C (c_wait hashes h0 server_most []) (Ok tt, c_mid []).
Proof.
  intro Hf. destruct (ag_sizes _ _ A) as (L1 & L2 & L3 & L4 & L5). destruct (ag_small _ _ A) as [K1 K2].
  pose proof (mirrored_bump _ _ Hmir) as M1. pose proof (mirrored_bump _ _ M1) as M2. pose proof (mirrored_bump _ _ M2) as M3.
  pose proof (ser_hs_head _ _ _ (ag_sh _ _ A)) as [Lh Hh].
  set (r2 := hs_record C 16384 (bump_w (bump_w xs)) (dl_cv d)).
  set (r1 := hs_record C 16384 (bump_w xs) (dl_ce d)).
  set (r0 := hs_record C 16384 xs (dl_ee d)).
  assert (Dn : forall n (c : conn), c_cipher c = Some (Nat.iter n bump_r x2) -> dec_on c = true).
  { intros n c E. unfold dec_on. rewrite E. apply Hdec. }
  eapply loops_more.
  { eapply (one_message C _ _ (dl_sh d) (sh_of d) SERVER_HELLO (mkTr (map (fun p => (fst p, snd p ++ dl_sh d)) hashes) 3)).
    - apply (read_plain C _ 4096 (dl_sh d) (ccs_record ++ r0 ++ r1 ++ r2)); [reflexivity | lia | | reflexivity | exact Lh | exact Hh | rewrite (plain_small 4096 16384) by lia; reflexivity].
      change (max_frag (c_wait hashes h0 (server_most) [])) with (g_mfl (dl_gc d)). pose proof (ag_mflc _ _ A). lia.
    - apply (ag_psh _ _ A).
    - reflexivity.
    - cbn [c_config cset_in c_wait c_tr]. rewrite (ag_gc _ _ A). reflexivity.
    - exact (client_sh hashes h0 (ccs_record ++ r0 ++ r1 ++ r2) Hf). }
  eapply loops_more.
  { eapply (one_message C _ _ (dl_ee d) (ee_of d) ENCRYPTED_EXTENSIONS (mkTr [(dl_h d, m_ee d)] 4)).
    - apply (read_sealed4 _ x2 xs (dl_ee d) (r1 ++ r2) (ee_of d)); [reflexivity | reflexivity | apply (Dn 0%nat); reflexivity | reflexivity | exact (proj1 (ag_mflc _ _ A)) | exact (ag_ee _ _ A) | exact K2 | apply (Hready 0); lia | exact Hmir].
    - apply (ag_pee _ _ A).
    - reflexivity.
    - cbn [c_config cset_in cset_cipher c_tr]. rewrite (ag_gc _ _ A). reflexivity.
    - unfold heard_of. cbn [c_config cset_in cset_cipher]. rewrite (ag_gc _ _ A). apply client_ee. }
  eapply loops_more.
  { eapply (one_message C _ _ (dl_ce d) (ce_of d) CERTIFICATE (mkTr [(dl_h d, m_ce d)] 6)).
    - apply (read_sealed16 _ (bump_r x2) (bump_w xs) (dl_ce d) r2 (ce_of d)); [reflexivity | reflexivity | apply (Dn 1%nat); reflexivity | reflexivity | reflexivity | exact (ag_ce _ _ A) | exact L2 | apply (Hready 1); lia | exact M1].
    - change (peer_cert_type _) with (Some (match g_side (dl_gc d) with Server => n_cct nc2 | Client => n_sct nc2 end)). rewrite (ag_gc _ _ A). apply (ag_pce _ _ A).
    - reflexivity.
    - cbn [c_config cset_in cset_cipher c_tr]. rewrite (ag_gc _ _ A). reflexivity.
    - unfold heard_of. cbn [c_config cset_in cset_cipher]. rewrite (ag_gc _ _ A). apply client_ce. }
  eapply loops_more.
  { eapply (one_message C _ _ (dl_cv d) (cv_of d) CERTIFICATE_VERIFY (mkTr [(dl_h d, m_cv d)] 7)).
    - apply (read_sealed16 _ (bump_r (bump_r x2)) (bump_w (bump_w xs)) (dl_cv d) [] (cv_of d)); [cbn [c_in]; rewrite app_nil_r; reflexivity | reflexivity | apply (Dn 2%nat); reflexivity | reflexivity | reflexivity | exact (ag_cv _ _ A) | exact L3 | apply (Hready 2); lia | exact M2].
    - apply (ag_pcv _ _ A).
    - reflexivity.
    - cbn [c_config cset_in cset_cipher c_tr]. rewrite (ag_gc _ _ A). reflexivity.
    - unfold heard_of. cbn [c_config cset_in cset_cipher]. rewrite (ag_gc _ _ A). apply client_cv. }
  apply loops_stop. apply read_empty. reflexivity.
Qed.
Lemma client_last : exists m z, read_next_content C (c_mid (hs_record C 16384 (bump_w (bump_w (bump_w xs))) (dl_sf d))) = (Ok (Some m), z) /\ c_in z = [].
Proof.
  destruct (ag_sizes _ _ A) as (L1 & L2 & L3 & L4 & L5).
  pose proof (mirrored_bump _ _ (mirrored_bump _ _ (mirrored_bump _ _ Hmir))) as M3. do 2 eexists. split.
  - apply (read_sealed16 _ (bump_r (bump_r (bump_r x2))) (bump_w (bump_w (bump_w xs))) (dl_sf d) [] (HFinished (dl_fs d))); [cbn [c_in c_mid]; rewrite app_nil_r; reflexivity | reflexivity | exact (Hdec 3) | reflexivity | reflexivity | exact (ag_sf _ _ A) | exact L4 | apply (Hready 3); lia | exact M3].
  - reflexivity.
Qed.
End client.

(* the server reads the end *)
Section server_end.
Variables (C : crypto) (d : deal).
Hypothesis A : agreed C d.
Hypothesis As : aead_sized C.
Hypothesis AC : aead_correct C.
Variables y z w : cs.      (* of the client when sending Finished; of the server *)
Variable v : bytes * bytes.
Hypothesis Hdec : must_decrypt z = true.
Hypothesis Hready : ready (cs_w y).
Hypothesis Hmir : mirrored y z.
Hypothesis Hvf : verify_finish C (cr_hash C (dl_h d) (m_sf d)) (dl_fc d) (bump_r z) = Ok tt.
Hypothesis Hw : derive_master_secrets C (cr_hash C (dl_h d) (m_sf d)) (cr_hash C (dl_h d) (m_cf d)) (bump_r z) = (Ok v, w).

Definition s_wait nc x inp lg hs := mkConn (dl_gs d) None (dl_socsp d) (Some nc) (Some x) (Some (dl_sg d)) (mkTr [(dl_h d, m_sf d)] 8) inp [] [] []
  (Some (dl_cu d)) (Some (dl_su d)) (ServerWaitFinished (cr_hash C (dl_h d) (m_sf d))) (dl_srng d) 1 lg hs.
Lemma server_receives nc lg hs : n_mfl nc = Some 16384 -> exists hs',
  loops C (s_wait nc z (ccs_record ++ hs_record C 16384 y (dl_cf d)) lg hs)
    (Ok tt, mkConn (dl_gs d) None (dl_socsp d) (Some nc) (Some w) (Some (dl_sg d)) (mkTr [(dl_h d, m_cf d)] 12) [] [] [] []
       (Some (dl_cu d)) (Some (dl_su d)) Connected (dl_srng d) 1 lg hs').
Proof.
  intro Hm. eexists. destruct (ag_sizes _ _ A) as (_ & _ & _ & _ & L5).
  eapply loops_more.
  { eapply (one_message C _ _ (dl_cf d) (HFinished (dl_fc d)) FINISHED (mkTr [(dl_h d, m_cf d)] 12)).
    - apply (read_sealed16 C As AC _ z y (dl_cf d) [] (HFinished (dl_fc d)));
        [cbn [c_in s_wait]; rewrite app_nil_r; reflexivity | reflexivity | exact Hdec | reflexivity | unfold max_frag; cbn [c_nc s_wait]; rewrite Hm; reflexivity | exact (ag_cf _ _ A) | exact L5 | exact Hready | exact Hmir].
    - apply (ag_pcf _ _ A).
    - reflexivity.
    - cbn [c_config cset_in cset_cipher c_tr s_wait]. rewrite (ag_gs _ _ A). reflexivity.
    - unfold process, s_wait. go. unfold process_server_finished. go. rewrite Hvf. go. rewrite Hw. go. reflexivity. }
  apply loops_stop. apply read_empty. reflexivity.
Qed.
Lemma server_last nc lg hs : n_mfl nc = Some 16384 ->
  exists m c1, read_next_content C (s_wait nc z (ccs_record ++ hs_record C 16384 y (dl_cf d)) lg hs) = (Ok (Some m), c1) /\ c_in c1 = [].
Proof.
  intro Hm. destruct (ag_sizes _ _ A) as (_ & _ & _ & _ & L5). do 2 eexists. split.
  - apply (read_sealed16 C As AC _ z y (dl_cf d) [] (HFinished (dl_fc d)));
        [cbn [c_in s_wait]; rewrite app_nil_r; reflexivity | reflexivity | exact Hdec | reflexivity | unfold max_frag; cbn [c_nc s_wait]; rewrite Hm; reflexivity | exact (ag_cf _ _ A) | exact L5 | exact Hready | exact Hmir].
  - reflexivity.
Qed.
End server_end.
