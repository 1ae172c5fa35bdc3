From Verif Require Import Base Iana Crypto Config Ext Msg Cipher Kex Sig Ocsp Transcript Conn S_Hist S_Conn S_Send S_Auth S_Server S_Deliver S_Keys S_Utils S_Codec S_Split S_Honest P_Base P_Hist P_Tr P_Auth P_Neg P_Refuse P_Codec P_Keys P_Send P_Deliver P_Split P_Honest P_Honest2 P_Honest3 P_Honest4 P_Honest5 P_Honest6 P_Honest7 P_Honest8.

Lemma iter_loaded_w lim n x m : loaded lim m (cs_w x) -> loaded lim (m + N.of_nat n) (cs_w (Nat.iter n bump_w x)).
Proof.
  intro L. induction n as [|n IH]; [rewrite N.add_0_r; exact L|]. replace (m + N.of_nat (S n)) with (m + N.of_nat n + 1) by lia.
  exact (loaded_bump _ _ _ IH).
Qed.
Lemma iter_loaded_r lim n x m : loaded lim m (cs_r x) -> loaded lim (m + N.of_nat n) (cs_r (Nat.iter n bump_r x)).
Proof.
  intro L. induction n as [|n IH]; [rewrite N.add_0_r; exact L|]. replace (m + N.of_nat (S n)) with (m + N.of_nat n + 1) by lia.
  exact (loaded_bump _ _ _ IH).
Qed.

Section ends.
Variables (C : crypto) (d : deal) (lim klen : N).
Hypothesis HC : honest_crypto C.
Hypothesis R : ready_deal C d lim klen.
Let A := rd_agreed _ _ _ _ R.

Record ciphers (x1s xs x1c xc w5 x5 : cs) : Prop := {
  k_skip_s : skip_early_secrets C (cs_new 0 0 (dl_suite d) Server) = (Ok tt, x1s);
  k_suite_s : cs_suite x1s = dl_suite d;
  k_plain_s : must_encrypt x1s = false;
  k_hs_s : derive_handshake_secrets C (dl_z d) (cr_hash C (dl_h d) (m_sh d)) x1s = (Ok tt, xs);
  k_skip_c : skip_early_secrets C (cs_new 0 0 (dl_suite d) Client) = (Ok tt, x1c);
  k_hs_c : derive_handshake_secrets C (dl_z d) (cr_hash C (dl_h d) (m_sh d)) x1c = (Ok tt, xc);
  k_ws : loaded lim 0 (cs_w xs); k_rs : loaded lim 0 (cs_r xs);
  k_wc : loaded lim 0 (cs_w xc); k_rc : loaded lim 0 (cs_r xc);
  k_suites : cs_suite xs = dl_suite d /\ cs_suite xc = dl_suite d;
  k_hks : handshake_keys C (dl_suite d) Server (dl_z d) (cr_hash C (dl_h d) (m_sh d)) xs;
  k_hkc : handshake_keys C (dl_suite d) Client (dl_z d) (cr_hash C (dl_h d) (m_sh d)) xc;
  k_ap_c : exists v, derive_master_secrets C (cr_hash C (dl_h d) (m_sf d)) (cr_hash C (dl_h d) (m_cf d)) (bump_w (bump_r (bump_r (bump_r (bump_r xc))))) = (Ok v, x5);
  k_ap_s : exists v, derive_master_secrets C (cr_hash C (dl_h d) (m_sf d)) (cr_hash C (dl_h d) (m_cf d)) (bump_r (x3 xs)) = (Ok v, w5);
  k_end : cs_suite w5 = dl_suite d /\ cs_suite x5 = dl_suite d;
  k_loaded : loaded lim 0 (cs_w w5) /\ loaded lim 0 (cs_r w5) /\ loaded lim 0 (cs_w x5) /\ loaded lim 0 (cs_r x5);
  k_match : d_key (cs_w x5) = d_key (cs_r w5) /\ d_iv (cs_w x5) = d_iv (cs_r w5) /\
    d_key (cs_w w5) = d_key (cs_r x5) /\ d_iv (cs_w w5) = d_iv (cs_r x5);
  k_app : application_keys C (dl_suite d) Client (dl_z d) (cr_hash C (dl_h d) (m_sh d)) (cr_hash C (dl_h d) (m_sf d)) x5 /\
    application_keys C (dl_suite d) Server (dl_z d) (cr_hash C (dl_h d) (m_sh d)) (cr_hash C (dl_h d) (m_sf d)) w5 }.

Lemma hash_short m : blen (cr_hash C (dl_h d) m) <= 255.
Proof. rewrite (hc_hash _ HC). destruct (dl_h d); vm_compute; discriminate. Qed.
Lemma in_suites : In (dl_suite d) (map fst suite_table).
Proof. apply in_map_iff. exists (dl_suite d, (dl_h d, klen)). split; [reflexivity | exact (rd_table _ _ _ _ R)]. Qed.

Lemma have_ciphers : exists x1s xs x1c xc w5 x5, ciphers x1s xs x1c xc w5 x5.
Proof.
  pose proof (hc_hmac _ HC) as Hm. pose proof (rd_limit _ _ _ _ R) as U.
  destruct (hs_cipher C 0 0 (dl_suite d) Server lim Hm (hc_hash _ HC) U) as (x1s & S1 & S2 & S3 & _ & S4).
  destruct (hs_cipher C 0 0 (dl_suite d) Client lim Hm (hc_hash _ HC) U) as (x1c & C1 & C2 & _ & _ & C4).
  destruct (S4 (dl_z d) (cr_hash C (dl_h d) (m_sh d)) (hash_short _)) as (xs & S5 & S6 & _ & S7 & S8 & S9).
  destruct (C4 (dl_z d) (cr_hash C (dl_h d) (m_sh d)) (hash_short _)) as (xc & C5 & C6 & _ & C7 & C8 & C9).
  assert (Kc : handshake_keys C (dl_suite d) Client (dl_z d) (cr_hash C (dl_h d) (m_sh d)) (bump_w (bump_r (bump_r (bump_r (bump_r xc)))))).
  { eapply hk_same'; [apply bump_w_same|]. do 4 (eapply hk_same'; [apply bump_r_same|]). exact C7. }
  assert (Ks : handshake_keys C (dl_suite d) Server (dl_z d) (cr_hash C (dl_h d) (m_sh d)) (bump_r (x3 xs))).
  { eapply hk_same'; [apply bump_r_same|]. unfold x3. do 4 (eapply hk_same'; [apply bump_w_same|]). exact S7. }
  destruct (handshake_keys_full C (dl_suite d) Client _ _ _ _ _ Hm (rd_table _ _ _ _ R) Kc) as (_ & Ec & _ & Tc & _).
  destruct (handshake_keys_full C (dl_suite d) Server _ _ _ _ _ Hm (rd_table _ _ _ _ R) Ks) as (_ & Es & _ & Ts & _).
  destruct (ap_cipher C (dl_suite d) Client (dl_z d) _ _ lim (cr_hash C (dl_h d) (m_sf d)) (cr_hash C (dl_h d) (m_cf d)) Hm U Kc Tc Ec (hash_short _) (hash_short _)) as (vc & x5 & P1 & P2 & P3 & P4 & P5).
  destruct (ap_cipher C (dl_suite d) Server (dl_z d) _ _ lim (cr_hash C (dl_h d) (m_sf d)) (cr_hash C (dl_h d) (m_cf d)) Hm U Ks Ts Es (hash_short _) (hash_short _)) as (vs & w5 & Q1 & Q2 & Q3 & Q4 & Q5).
  exists x1s, xs, x1c, xc, w5, x5. constructor; try assumption; try (split; assumption); try (eexists; eassumption).
  - repeat split; assumption.
  - exact (application_keys_match C (dl_suite d) _ _ _ _ _ Hm in_suites P3 Q3).
Qed.

Variables x1s xs x1c xc w5 x5 : cs.
Hypothesis K : ciphers x1s xs x1c xc w5 x5.
Let U := rd_limit _ _ _ _ R.
Let Hm := hc_hmac _ HC.

Lemma mirror_sc : mirrored xs xc.
Proof.
  destruct (handshake_keys_match C _ _ _ _ _ Hm in_suites (k_hkc _ _ _ _ _ _ K) (k_hks _ _ _ _ _ _ K)) as (_ & _ & M1 & M2).
  destruct (k_suites _ _ _ _ _ _ K) as [E1 E2]. destruct (k_ws _ _ _ _ _ _ K) as (? & ? & _ & _ & _ & Q1). destruct (k_rc _ _ _ _ _ _ K) as (? & ? & _ & _ & _ & Q2).
  repeat split; congruence.
Qed.
Lemma mirror_cs : mirrored xc xs.
Proof.
  destruct (handshake_keys_match C _ _ _ _ _ Hm in_suites (k_hkc _ _ _ _ _ _ K) (k_hks _ _ _ _ _ _ K)) as (M1 & M2 & _ & _).
  destruct (k_suites _ _ _ _ _ _ K) as [E1 E2]. destruct (k_wc _ _ _ _ _ _ K) as (? & ? & _ & _ & _ & Q1). destruct (k_rs _ _ _ _ _ _ K) as (? & ? & _ & _ & _ & Q2).
  repeat split; congruence.
Qed.
Lemma ready_at n x : (n < 10)%nat -> loaded lim 0 (cs_w x) -> ready (cs_w (Nat.iter n bump_w x)).
Proof.
  intros Ln L. apply (loaded_ready _ _ (0 + N.of_nat n) _ U); [|apply iter_loaded_w; exact L]. pose proof (limit_small _ _ U). lia.
Qed.
Lemma lt4 n : (n < 4)%nat -> (n < 10)%nat. Proof. lia. Qed.
Lemma lt1 : (0 < 10)%nat. Proof. lia. Qed.
Lemma dec_at n : must_decrypt (Nat.iter n bump_r xc) = true.
Proof. exact (loaded_key _ _ _ (iter_loaded_r _ n _ _ (k_rc _ _ _ _ _ _ K))). Qed.
Lemma hs_keys_y4 : handshake_keys C (dl_suite d) Client (dl_z d) (cr_hash C (dl_h d) (m_sh d)) (bump_r (bump_r (bump_r (bump_r xc)))).
Proof. do 4 (eapply hk_same'; [apply bump_r_same|]). exact (k_hkc _ _ _ _ _ _ K). Qed.
Lemma hs_keys_xs3 : handshake_keys C (dl_suite d) Server (dl_z d) (cr_hash C (dl_h d) (m_sh d)) (bump_w (bump_w (bump_w xs))).
Proof. do 3 (eapply hk_same'; [apply bump_w_same|]). exact (k_hks _ _ _ _ _ _ K). Qed.
Lemma hs_keys_end : handshake_keys C (dl_suite d) Server (dl_z d) (cr_hash C (dl_h d) (m_sh d)) (bump_r (x3 xs)).
Proof. eapply hk_same'; [apply bump_r_same|]. eapply hk_same'; [apply bump_w_same|]. exact hs_keys_xs3. Qed.

(* --- the calls ------------------------------------------------------------ *)
Let As := hc_aead _ HC.
Let AC := hc_correct _ HC.
Definition s_start hashes := mkConn (dl_gs d) None (dl_socsp d) None None None (mkTr hashes 1) [] [] [] [] None (Some (dl_su d)) ServerStart (dl_srng d) 0 [] [].
Definition y4 := bump_r (bump_r (bump_r (bump_r xc))).

Lemma server_reads_hello hashes hs lg : find (fun p : hashalg * bytes => hashalg_eqb (fst p) (dl_h d)) hashes = Some (dl_h d, []) ->
  exists lg' hs', length lg' = (4 + length lg)%nat /\ receive_data C (plain_wire (g_mfl (dl_gc d)) (dl_ch d))
    (mkConn (dl_gs d) None (dl_socsp d) None None None (mkTr hashes 1) [] [] [] [] None (Some (dl_su d)) (ServerWaitClientHello true) (dl_srng d) 0 lg hs) =
  (Ok tt, mkConn (dl_gs d) None (dl_socsp d) (Some (server_nc d (heartbeat_mode (dl_gc d)))) (Some (x3 xs)) (Some (dl_sg d)) (mkTr [(dl_h d, m_sf d)] 8) [] [] (server_out C d xs) []
            (Some (dl_cu d)) (Some (dl_su d)) (ServerWaitFinished (cr_hash C (dl_h d) (m_sf d))) (dl_srng d) 1 lg' hs').
Proof.
  intro Hf. pose proof (ser_hs_head _ _ _ (ag_ch _ _ A)) as [Lh Hh].
  assert (Hf' : find (fun p : hashalg * bytes => hashalg_eqb (fst p) (dl_h d)) (map (fun p : hashalg * bytes => (fst p, snd p ++ dl_ch d)) hashes) = Some (dl_h d, dl_ch d)) by (rewrite find_fed, Hf; reflexivity).
  destruct (finishes C (dl_suite d) (dl_h d) klen Server _ _ _ (cr_hash C (dl_h d) (m_cv d)) Hm (rd_table _ _ _ _ R) hs_keys_xs3) as [Fs _].
  rewrite <- (rd_fs _ _ _ _ R) in Fs.
  pose proof (k_ws _ _ _ _ _ _ K) as Lw.
  assert (Rd : ready (cs_w xs) /\ ready (cs_w (bump_w xs)) /\ ready (cs_w (bump_w (bump_w xs))) /\ ready (cs_w (bump_w (bump_w (bump_w xs))))).
  { split; [apply (ready_at 0); [lia | exact Lw]|]. split; [apply (ready_at 1); [lia | exact Lw]|]. split; [apply (ready_at 2); [lia | exact Lw] | apply (ready_at 3); [lia | exact Lw]]. }
  destruct (server_flight C d A As x1s xs (k_skip_s _ _ _ _ _ _ K) (k_suite_s _ _ _ _ _ _ K) (k_hs_s _ _ _ _ _ _ K) (k_plain_s _ _ _ _ _ _ K) Rd Fs
    _ [] lg (hs ++ [(Client, CLIENT_HELLO, dl_ch d)]) Hf') as (lg' & hs' & Ll & F).
  exists lg', hs'. split; [exact Ll|]. rewrite (receive_loops C (plain_wire (g_mfl (dl_gc d)) (dl_ch d)) _ (Ok tt, mkConn (dl_gs d) None (dl_socsp d) (Some (server_nc d (heartbeat_mode (dl_gc d)))) (Some (x3 xs)) (Some (dl_sg d)) (mkTr [(dl_h d, m_sf d)] 8) [] [] (server_out C d xs) []
            (Some (dl_cu d)) (Some (dl_su d)) (ServerWaitFinished (cr_hash C (dl_h d) (m_sf d))) (dl_srng d) 1 lg' hs')).
  - unfold finish. rewrite (no_rekey (dl_suite d) lim 4 (x3 xs)); [reflexivity | exact U | exact (proj1 (k_suites _ _ _ _ _ _ K)) | reflexivity | exact (iter_loaded_w _ 4 _ _ Lw) | lia].
  - intro E. destruct (frags_spec (g_mfl (dl_gc d)) (dl_ch d)) as (_ & _ & f & l & Ef & _); [pose proof (ag_mflc _ _ A); lia | exact Lh |].
    unfold plain_wire in E. rewrite Ef in E. discriminate E.
  - reflexivity.
  - eapply loops_more; [|apply loops_stop; apply read_empty; reflexivity].
    eapply (one_message C _ _ (dl_ch d) (ch_of C d) CLIENT_HELLO (mkTr (map (fun p : hashalg * bytes => (fst p, snd p ++ dl_ch d)) hashes) 2)).
    + apply (read_plain C _ (g_mfl (dl_gc d)) (dl_ch d) []); [reflexivity | pose proof (ag_mflc _ _ A); lia | | reflexivity | exact Lh | exact Hh | cbn [S_Split.with_more cset_in c_in app]; rewrite app_nil_r; reflexivity].
      unfold max_frag. cbn [S_Split.with_more cset_in c_nc c_config]. rewrite (ag_mfls _ _ A). pose proof (ag_mflc _ _ A). lia.
    + apply (ag_pch _ _ A).
    + reflexivity.
    + cbn [S_Split.with_more c_config cset_in c_tr]. rewrite (ag_gs _ _ A). reflexivity.
    + unfold heard_of. cbn [S_Split.with_more c_config cset_in c_tr]. rewrite (ag_gs _ _ A). exact F.
Qed.

Lemma client_reads hashes h0 : find (fun p : hashalg * bytes => hashalg_eqb (fst p) (dl_h d)) hashes = Some (dl_h d, dl_ch d) ->
  exists lg hs, length lg = 1%nat /\ receive_data C (server_out C d xs) (c_wait d hashes h0 [] []) =
    (Ok tt, mkConn (dl_gc d) (dl_host d) (dl_cocsp d) (Some (nc4 d)) (Some x5) None (mkTr [(dl_h d, m_cf d)] 12) [] [] (ccs_record ++ hs_record C 16384 y4 (dl_cf d)) []
       (Some (dl_cu d)) (Some (dl_su d)) Connected (dl_crng d) 1 lg hs).
Proof.
  intro Hf. destruct (finishes C (dl_suite d) (dl_h d) klen Client _ _ _ (cr_hash C (dl_h d) (m_cv d)) Hm (rd_table _ _ _ _ R) hs_keys_y4) as [_ F1].
  destruct (finishes C (dl_suite d) (dl_h d) klen Client _ _ _ (cr_hash C (dl_h d) (m_sf d)) Hm (rd_table _ _ _ _ R) hs_keys_y4) as [F2 _].
  cbn [other_side] in F1. rewrite <- (rd_fs _ _ _ _ R) in F1. rewrite <- (rd_fc _ _ _ _ R) in F2.
  destruct (k_ap_c _ _ _ _ _ _ K) as (v5 & F3).
  destruct (client_receives C d A As AC x1c xc xs x5 v5 (k_skip_c _ _ _ _ _ _ K) (k_hs_c _ _ _ _ _ _ K) dec_at mirror_sc
    (fun n Ln => ready_at n _ (lt4 _ Ln) (k_ws _ _ _ _ _ _ K))
    (ready_at 0 _ lt1 (k_wc _ _ _ _ _ _ K)) F1 F2 F3 hashes h0 Hf) as (lg & hs & Ll & F).
  exists lg, hs. split; [exact Ll|]. erewrite receive_loops; [|  | reflexivity | exact F].
  - unfold finish. erewrite (no_rekey (dl_suite d) lim 0); [reflexivity | exact U | exact (proj2 (k_end _ _ _ _ _ _ K)) | reflexivity | apply (k_loaded _ _ _ _ _ _ K) | lia].
  - pose proof (ser_hs_head _ _ _ (ag_sh _ _ A)) as [Lh _]. destruct (frags_spec 16384 (dl_sh d)) as (_ & _ & f & l & Ef & _); [lia | exact Lh |].
    unfold server_out, plain_wire. rewrite Ef. discriminate.
Qed.

Lemma server_reads_end lg hs : exists hs',
  receive_data C (ccs_record ++ hs_record C 16384 y4 (dl_cf d)) (s_wait C d (server_nc d (heartbeat_mode (dl_gc d))) (x3 xs) [] lg hs) =
    (Ok tt, mkConn (dl_gs d) None (dl_socsp d) (Some (server_nc d (heartbeat_mode (dl_gc d)))) (Some w5) (Some (dl_sg d)) (mkTr [(dl_h d, m_cf d)] 12) [] [] [] []
       (Some (dl_cu d)) (Some (dl_su d)) Connected (dl_srng d) 1 lg hs').
Proof.
  destruct (finishes C (dl_suite d) (dl_h d) klen Server _ _ _ (cr_hash C (dl_h d) (m_sf d)) Hm (rd_table _ _ _ _ R) hs_keys_end) as [_ F1].
  cbn [other_side] in F1. rewrite <- (rd_fc _ _ _ _ R) in F1. destruct (k_ap_s _ _ _ _ _ _ K) as (v & F3).
  destruct (server_receives C d A As AC y4 (x3 xs) w5 v (loaded_key _ _ _ (k_rs _ _ _ _ _ _ K)) (ready_at 0 _ lt1 (k_wc _ _ _ _ _ _ K)) mirror_cs F1 F3
    (server_nc d (heartbeat_mode (dl_gc d))) lg hs) as (hs' & F).
  { cbn. rewrite (ag_mfls _ _ A). reflexivity. }
  exists hs'. erewrite receive_loops; [| discriminate | reflexivity | exact F].
  unfold finish. erewrite (no_rekey (dl_suite d) lim 0); [reflexivity | exact U | exact (proj1 (k_end _ _ _ _ _ _ K)) | reflexivity | apply (k_loaded _ _ _ _ _ _ K) | lia].
Qed.

(* --- where the flights end -------------------------------------------------- *)
Lemma hello_read hashes hs lg : exists m z, read_next_content C
    (mkConn (dl_gs d) None (dl_socsp d) None None None (mkTr hashes 1) (plain_wire (g_mfl (dl_gc d)) (dl_ch d)) [] [] [] None (Some (dl_su d)) (ServerWaitClientHello true) (dl_srng d) 0 lg hs) =
  (Ok (Some m), z) /\ c_in z = [].
Proof.
  pose proof (ser_hs_head _ _ _ (ag_ch _ _ A)) as [Lh Hh]. do 2 eexists. split.
  - apply (read_plain C _ (g_mfl (dl_gc d)) (dl_ch d) []); [reflexivity | pose proof (ag_mflc _ _ A); lia | | reflexivity | exact Lh | exact Hh | cbn [c_in]; rewrite app_nil_r; reflexivity].
    unfold max_frag. cbn [c_nc c_config]. rewrite (ag_mfls _ _ A). pose proof (ag_mflc _ _ A). lia.
  - reflexivity.
Qed.
Lemma most_read hashes h0 : find (fun p : hashalg * bytes => hashalg_eqb (fst p) (dl_h d)) hashes = Some (dl_h d, dl_ch d) ->
  receive_data C (server_most C d xs) (c_wait d hashes h0 [] []) = (Ok tt, c_mid C d xc []).
Proof.
  intro Hf.
  pose proof (client_most C d A As AC x1c xc xs (k_skip_c _ _ _ _ _ _ K) (k_hs_c _ _ _ _ _ _ K) dec_at mirror_sc
    (fun n Ln => ready_at n _ (lt4 _ Ln) (k_ws _ _ _ _ _ _ K)) hashes h0 Hf) as F.
  erewrite receive_loops; [|  | reflexivity | exact F].
  - unfold finish. rewrite (no_rekey (dl_suite d) lim 0 (bump_r (bump_r (bump_r xc)))); [reflexivity | exact U | exact (proj2 (k_suites _ _ _ _ _ _ K)) | reflexivity | exact (k_wc _ _ _ _ _ _ K) | lia].
  - pose proof (ser_hs_head _ _ _ (ag_sh _ _ A)) as [Lh _]. destruct (frags_spec 16384 (dl_sh d)) as (_ & _ & f & l & Ef & _); [lia | exact Lh |].
    unfold server_most, plain_wire. rewrite Ef. discriminate.
Qed.
Lemma last_read : exists m z, read_next_content C (c_mid C d xc (hs_record C 16384 (bump_w (bump_w (bump_w xs))) (dl_sf d))) = (Ok (Some m), z) /\ c_in z = [].
Proof.
  exact (client_last C d A As AC xc xs dec_at mirror_sc (fun n Ln => ready_at n _ (lt4 _ Ln) (k_ws _ _ _ _ _ _ K))).
Qed.
Lemma end_read lg hs : exists m z, read_next_content C
  (s_wait C d (server_nc d (heartbeat_mode (dl_gc d))) (x3 xs) (ccs_record ++ hs_record C 16384 y4 (dl_cf d)) lg hs) = (Ok (Some m), z) /\ c_in z = [].
Proof.
  apply (server_last C d A As AC y4 (x3 xs) (loaded_key _ _ _ (k_rs _ _ _ _ _ _ K)) (ready_at 0 _ lt1 (k_wc _ _ _ _ _ _ K)) mirror_cs).
  cbn. rewrite (ag_mfls _ _ A). reflexivity.
Qed.
End ends.
