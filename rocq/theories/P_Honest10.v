From Verif Require Import Base Iana Crypto Config Ext Msg Cipher Kex Sig Ocsp Transcript Conn S_Hist S_Conn S_Send S_Auth S_Server S_Deliver S_Keys S_Utils S_Codec S_Split S_Honest P_Base P_Hist P_Tr P_Auth P_Neg P_Refuse P_Codec P_Keys P_Send P_Deliver P_Split P_Honest P_Honest2 P_Honest3 P_Honest4 P_Honest5 P_Honest6 P_Honest7 P_Honest8 P_Honest9.

Lemma step_init C c c' : initiate_connection C c = (Ok tt, c') -> step C OInit c = (Ok [], c').
Proof. intro E. unfold step, bind. rewrite E. reflexivity. Qed.
Lemma step_recv C b c c' : receive_data C b c = (Ok tt, c') -> step C (ORecv b) c = (Ok [], c').
Proof. intro E. unfold step, bind. rewrite E. reflexivity. Qed.
Lemma after_eq C o c r c' : step C o c = (r, c') -> after C o c = c'.
Proof. intro E. unfold after. rewrite E. reflexivity. Qed.
Lemma returned_eq C o c b c' : step C o c = (Ok b, c') -> returned C o c = b.
Proof. intro E. unfold returned. rewrite E. reflexivity. Qed.

Definition calm (c : conn) : Prop := c_in c = [] /\ (length (c_log c) < 1000)%nat.
(* where the flights end: the last byte of each completes its last message *)
Definition one_left (C : crypto) (b : bytes) (c : conn) : Prop := exists m z, read_next_content C (with_more b c) = (Ok (Some m), z) /\ c_in z = [].
Definition shape (C : crypto) (c s : conn) : Prop :=
  one_left C (flight1 C c) (run C [OInit] s) /\
  (exists a b m, flight2 C c s = a ++ b /\ a <> [] /\ receive_data C a (run C [OInit; OFlush] c) = (Ok tt, m) /\ calm m /\ is_post_handshake m = false /\ one_left C b m) /\
  one_left C (flight3 C c s) (run C [OInit; ORecv (flight1 C c); OFlush] s) /\
  c_out (run C [OInit; OFlush] c) = [] /\ c_out (run C [OInit] s) = [] /\
  is_post_handshake (run C [OInit; OFlush] c) = false /\ is_post_handshake (run C [OInit] s) = false /\ is_post_handshake (run C [OInit; ORecv (flight1 C c); OFlush] s) = false /\
  c_out (run C (server_ops C c s) s) = [].
(* both ends know the ClientHello's random and derived the same secrets *)
Definition same_secrets (C : crypto) (c s : conn) : Prop :=
  exists d u x w suite h klen shared th th_sf ex,
    c_cunique c = Some u /\ (exists m, 4096 <= m /\ flight1 C c = plain_wire m d) /\ mk_client_hello u (g_suites (c_config c)) ex = Ok (HClientHello u [] (g_suites (c_config c)) ex) /\
    ser_content C (KHandshake (HClientHello u [] (g_suites (c_config c)) ex)) = Ok d /\
    c_cunique (run C (client_ops C c s) c) = Some u /\ c_cunique (run C (server_ops C c s) s) = Some u /\
    c_cipher (run C (client_ops C c s) c) = Some x /\ c_cipher (run C (server_ops C c s) s) = Some w /\
    In (suite, (h, klen)) suite_table /\
    application_keys C suite Client shared th th_sf x /\ application_keys C suite Server shared th th_sf w.
(* nothing was written yet under the present key *)
Definition newly (suite lim : N) (c : conn) : Prop :=
  exists x, c_cipher c = Some x /\ cs_suite x = suite /\ usage_limit suite = Some lim /\ d_seq (cs_w x) = Some (mkSeq 0 lim).
(* what the two say was negotiated *)
Definition settled (C : crypto) (gc gs : config) (c s : conn) : Prop :=
  exists d, agreed C d /\ dl_gc d = gc /\ dl_gs d = gs /\
    c_nc (run C (client_ops C c s) c) = Some (nc4 d) /\ c_nc (run C (server_ops C c s) s) = Some (server_nc d (heartbeat_mode (dl_gc d))) /\
    exists lim, newly (dl_suite d) lim (run C (client_ops C c s) c) /\ newly (dl_suite d) lim (run C (server_ops C c s) s).
Lemma honest_all C gc gs c s : honest_crypto C -> compatible C gc gs c s ->
  wide_fragments gc -> first_share gc gs -> no_ccm gc gs ->
  smooth C (client_ops C c s) c /\ smooth C (server_ops C c s) s /\
  c_state (run C (client_ops C c s) c) = Connected /\ c_state (run C (server_ops C c s) s) = Connected /\
  linked (mkWorld (run C (client_ops C c s) c) (run C (server_ops C c s) s) [] [] [] [] [] []) /\
  alpn_agreed gc gs (run C (client_ops C c s) c) (run C (server_ops C c s) s) /\
  calm (run C [OInit; OFlush; ORecv (flight2 C c s)] c) /\ calm (run C [OInit; ORecv (flight1 C c)] s) /\ calm (run C (server_ops C c s) s) /\ shape C c s /\ same_secrets C c s /\ settled C gc gs c s.
Proof.
  intros HC Cp Mc Sh Nccm. destruct (deal_made C gc gs c s HC Cp Mc Sh Nccm) as (d & lim & klen & hlc & hls & R & Ec & Es & Hc & Hs & Nc & Ic & Is).
  destruct (have_ciphers C d lim klen HC R) as (x1s & xs & x1c & xc & w5 & x5 & K). pose proof (rd_agreed _ _ _ _ R) as A.
  (* the client starts *)
  assert (S1 : exists h0, initiate_connection C c = (Ok tt, c_wait d (map (fun h => (h, dl_ch d)) hlc) h0 [] (plain_wire (g_mfl (dl_gc d)) (dl_ch d)))).
  { destruct hlc as [|h1 l]; [congruence|]. destruct (client_starts C d A h1 (map (fun h => (h, [])) l)) as (h0 & E). exists h0. rewrite Hc.
    change (map (fun h => (h, [])) (h1 :: l)) with ((h1, @nil byte) :: map (fun h => (h, [])) l). rewrite E. unfold c_wait. do 3 f_equal.
    cbn [map fst snd app]. f_equal. rewrite map_map. reflexivity. }
  destruct S1 as (h0 & S1). apply step_init in S1.
  set (c1 := c_wait d (map (fun h => (h, dl_ch d)) hlc) h0 [] (plain_wire (g_mfl (dl_gc d)) (dl_ch d))) in *.
  assert (S2 : step C OFlush c1 = (Ok (plain_wire (g_mfl (dl_gc d)) (dl_ch d)), c_wait d (map (fun h => (h, dl_ch d)) hlc) h0 [] [])) by reflexivity.
  set (c2 := c_wait d (map (fun h => (h, dl_ch d)) hlc) h0 [] []) in *.
  assert (F1 : flight1 C c = plain_wire (g_mfl (dl_gc d)) (dl_ch d)).
  { unfold flight1, run. rewrite (after_eq _ _ _ _ _ S1). exact (returned_eq _ _ _ _ _ S2). }
  (* the server *)
  assert (T1 : step C OInit s = (Ok [], cset_state (ServerWaitClientHello true) s)).
  { apply step_init. rewrite Hs. reflexivity. }
  assert (T2 : exists lg hs, length lg = 4%nat /\ step C (ORecv (flight1 C c)) (cset_state (ServerWaitClientHello true) s) =
    (Ok [], mkConn (dl_gs d) None (dl_socsp d) (Some (server_nc d (heartbeat_mode (dl_gc d)))) (Some (x3 xs)) (Some (dl_sg d)) (mkTr [(dl_h d, m_sf d)] 8) [] [] (server_out C d xs) []
            (Some (dl_cu d)) (Some (dl_su d)) (ServerWaitFinished (cr_hash C (dl_h d) (m_sf d))) (dl_srng d) 1 lg hs)).
  { destruct (server_reads_hello C d lim klen HC R x1s xs x1c xc w5 x5 K (map (fun h => (h, [])) hls) [] []) as (lg & hs & Ll & E).
    { exact (find_has (dl_h d) [] hls Is). }
    exists lg, hs. split; [exact Ll|]. apply step_recv. rewrite F1, Hs, <- Es. exact E. }
  destruct T2 as (lg & hs & Lls & T2).
  set (s2 := mkConn (dl_gs d) None (dl_socsp d) (Some (server_nc d (heartbeat_mode (dl_gc d)))) (Some (x3 xs)) (Some (dl_sg d)) (mkTr [(dl_h d, m_sf d)] 8) [] [] (server_out C d xs) []
            (Some (dl_cu d)) (Some (dl_su d)) (ServerWaitFinished (cr_hash C (dl_h d) (m_sf d))) (dl_srng d) 1 lg hs) in *.
  assert (T3 : step C OFlush s2 = (Ok (server_out C d xs), s_wait C d (server_nc d (heartbeat_mode (dl_gc d))) (x3 xs) [] lg hs)) by reflexivity.
  set (s3 := s_wait C d (server_nc d (heartbeat_mode (dl_gc d))) (x3 xs) [] lg hs) in *.
  assert (F2 : flight2 C c s = server_out C d xs).
  { unfold flight2, run. rewrite (after_eq _ _ _ _ _ T1), (after_eq _ _ _ _ _ T2). exact (returned_eq _ _ _ _ _ T3). }
  (* the client again *)
  destruct (client_reads C d lim klen HC R x1s xs x1c xc w5 x5 K (map (fun h => (h, dl_ch d)) hlc) h0 (find_has _ _ _ Ic)) as (lgc & hsc & Llc & S3).
  apply step_recv in S3. fold c2 in S3. rewrite <- F2 in S3.
  set (c3 := mkConn (dl_gc d) (dl_host d) (dl_cocsp d) (Some (nc4 d)) (Some x5) None (mkTr [(dl_h d, m_cf d)] 12) [] [] (ccs_record ++ hs_record C 16384 (y4 xc) (dl_cf d)) []
       (Some (dl_cu d)) (Some (dl_su d)) Connected (dl_crng d) 1 lgc hsc) in *.
  assert (S4 : step C OFlush c3 = (Ok (ccs_record ++ hs_record C 16384 (y4 xc) (dl_cf d)), cset_out [] c3)) by reflexivity.
  assert (F3 : flight3 C c s = ccs_record ++ hs_record C 16384 (y4 xc) (dl_cf d)).
  { unfold flight3, run. rewrite (after_eq _ _ _ _ _ S1), (after_eq _ _ _ _ _ S2), (after_eq _ _ _ _ _ S3). exact (returned_eq _ _ _ _ _ S4). }
  (* the server at the end *)
  destruct (server_reads_end C d lim klen HC R x1s xs x1c xc w5 x5 K lg hs) as (hs' & T4).
  apply step_recv in T4. fold s3 in T4. rewrite <- F3 in T4.
  assert (Ec' : run C (client_ops C c s) c = cset_out [] c3).
  { unfold client_ops, run. rewrite (after_eq _ _ _ _ _ S1), (after_eq _ _ _ _ _ S2), (after_eq _ _ _ _ _ S3). exact (after_eq _ _ _ _ _ S4). }
  assert (Es' : run C (server_ops C c s) s = snd (step C (ORecv (flight3 C c s)) s3)).
  { unfold server_ops, run. rewrite (after_eq _ _ _ _ _ T1), (after_eq _ _ _ _ _ T2), (after_eq _ _ _ _ _ T3). reflexivity. }
  rewrite T4 in Es'. cbn [snd] in Es'.
  assert (Sh' : shape C c s).
  { assert (W : run C [OInit; OFlush] c = c2) by (unfold run; rewrite (after_eq _ _ _ _ _ S1); exact (after_eq _ _ _ _ _ S2)).
    assert (V : run C [OInit] s = cset_state (ServerWaitClientHello true) s) by (unfold run; exact (after_eq _ _ _ _ _ T1)).
    assert (X : run C [OInit; ORecv (flight1 C c); OFlush] s = s3) by (unfold run; rewrite (after_eq _ _ _ _ _ T1), (after_eq _ _ _ _ _ T2); exact (after_eq _ _ _ _ _ T3)).
    unfold shape. rewrite W, V, X, Es'. split; [|split; [|split]].
    - destruct (hello_read C d lim klen R (map (fun h => (h, [])) hls) [] []) as (m & z & E & Ez). exists m, z. rewrite F1, Hs, <- Es. auto.
    - exists (server_most C d xs), (hs_record C 16384 (bump_w (bump_w (bump_w xs))) (dl_sf d)), (c_mid C d xc []).
      split; [rewrite F2; apply server_out_most|]. split.
      { pose proof (ser_hs_head _ _ _ (ag_sh _ _ A)) as [Lh _]. destruct (frags_spec 16384 (dl_sh d)) as (_ & _ & f & l & Ef & _); [lia | exact Lh |].
        unfold server_most, plain_wire. rewrite Ef. discriminate. }
      split; [exact (most_read C d lim klen HC R x1s xs x1c xc w5 x5 K _ _ (find_has _ _ _ Ic))|].
      split; [split; [reflexivity | cbn [c_log c_mid length]; lia]|]. split; [reflexivity|].
      exact (last_read C d lim klen HC R x1s xs x1c xc w5 x5 K).
    - destruct (end_read C d lim klen HC R x1s xs x1c xc w5 x5 K lg hs) as (m & z & E & Ez). exists m, z. rewrite F3. auto.
    - rewrite Hs. repeat split. }
  rewrite Ec'. rewrite Es'.
  split.
  { unfold client_ops, smooth. rewrite S1, (after_eq _ _ _ _ _ S1), S2, (after_eq _ _ _ _ _ S2), S3, (after_eq _ _ _ _ _ S3), S4. repeat split; eexists; reflexivity. }
  split.
  { unfold server_ops, smooth. rewrite T1, (after_eq _ _ _ _ _ T1), T2, (after_eq _ _ _ _ _ T2), T3, (after_eq _ _ _ _ _ T3), T4. repeat split; eexists; reflexivity. }
  split; [reflexivity|]. split; [reflexivity|].
  destruct (k_end _ _ _ _ _ _ _ _ _ K) as [E1 E2]. destruct (k_match _ _ _ _ _ _ _ _ _ K) as (M1 & M2 & M3 & M4).
  destruct (k_loaded _ _ _ _ _ _ _ _ _ K) as ((k1 & i1 & L1 & _ & _ & Q1) & (k2 & i2 & L2 & _ & _ & Q2) & (k3 & i3 & L3 & _ & _ & Q3) & (k4 & i4 & L4 & _ & _ & Q4)).
  split.
  { split; [|split; [|repeat split]].
    - split; [exists x5, w5, k3; split; [reflexivity|]; split; [reflexivity|]; repeat split; congruence|].
      unfold max_frag. cbn [w_a w_b c_nc cset_out c3 nc4 nc3 nc2 n_mfl nset_sigalg nset_peer_cert nset_sct nset_cct nset_echo_hb nset_send_hb nset_alpn nset_mfl server_nc nset_want_ocsp].
      rewrite (ag_mfls _ _ A). split; [exact valid16|]. split; [lia|]. repeat split.
    - split; [exists w5, x5, k1; split; [reflexivity|]; split; [reflexivity|]; repeat split; congruence|].
      unfold max_frag. cbn [w_a w_b c_nc cset_out c3 nc4 nc3 nc2 n_mfl nset_sigalg nset_peer_cert nset_sct nset_cct nset_echo_hb nset_send_hb nset_alpn nset_mfl server_nc nset_want_ocsp].
      rewrite (ag_mfls _ _ A). split; [exact valid16|]. split; [lia|]. repeat split. }
  split; [|split; [|split; [|split; [split; [reflexivity | cbn [c_log]; lia] | split; [exact Sh'|split; [|exists d; rewrite Ec', Es'; split; [exact A|]; split; [exact Ec|]; split; [exact Es|]; split; [reflexivity|]; split; [reflexivity|]; exists lim; split; [exists x5 | exists w5]; repeat split; first [assumption | exact (rd_limit _ _ _ _ R)]]]]]]].
  4:{ destruct (k_app _ _ _ _ _ _ _ _ _ K) as [P1 P2].
      exists (dl_ch d), (dl_cu d), x5, w5, (dl_suite d), (dl_h d), klen, (dl_z d), (cr_hash C (dl_h d) (m_sh d)), (cr_hash C (dl_h d) (m_sf d)), (c_exts C d).
      rewrite Ec', Es'. assert (Eg : g_suites (c_config c) = g_suites (dl_gc d)) by (rewrite Hc; reflexivity). rewrite Eg.
      split; [rewrite Hc; reflexivity|]. split; [exists (g_mfl (dl_gc d)); split; [exact (proj1 (ag_mflc _ _ A)) | exact F1]|]. split; [exact (ag_mk _ _ A)|]. split; [exact (ag_ch _ _ A)|]. repeat (split; [reflexivity|]).
      split; [exact (rd_table _ _ _ _ R)|]. split; assumption. }
  2:{ unfold run. rewrite (after_eq _ _ _ _ _ S1), (after_eq _ _ _ _ _ S2), (after_eq _ _ _ _ _ S3). split; [reflexivity | cbn [c_log c3]; lia]. }
  2:{ unfold run. rewrite (after_eq _ _ _ _ _ T1), (after_eq _ _ _ _ _ T2). split; [reflexivity | cbn [c_log s2]; lia]. }
  exists (nc4 d), (server_nc d (heartbeat_mode (dl_gc d))), (dl_al d). split; [reflexivity|]. split; [reflexivity|]. split; [reflexivity|]. split; [reflexivity|].
  pose proof (ag_alpn _ _ A) as Al. destruct (dl_al d) as [p|].
  - destruct Al as (_ & _ & Fd & _). rewrite <- Ec, <- Es. eapply P_Neg.find_prefers; [|exact Fd]. intro y. apply memB_iff.
  - rewrite <- Ec, <- Es. destruct Al as [E|E]; [left|right]; [destruct (g_alpn (dl_gc d)) | destruct (g_alpn (dl_gs d))]; congruence || reflexivity || discriminate.
Qed.
Lemma honest_full C gc gs c s : honest_crypto C -> compatible C gc gs c s ->
  wide_fragments gc -> first_share gc gs -> no_ccm gc gs ->
  smooth C (client_ops C c s) c /\ smooth C (server_ops C c s) s /\
  c_state (run C (client_ops C c s) c) = Connected /\ c_state (run C (server_ops C c s) s) = Connected /\
  linked (mkWorld (run C (client_ops C c s) c) (run C (server_ops C c s) s) [] [] [] [] [] []) /\
  alpn_agreed gc gs (run C (client_ops C c s) c) (run C (server_ops C c s) s) /\
  calm (run C [OInit; OFlush; ORecv (flight2 C c s)] c) /\ calm (run C [OInit; ORecv (flight1 C c)] s) /\ calm (run C (server_ops C c s) s) /\ shape C c s.
Proof.
  intros HC Cp Mc Sh Nccm. destruct (honest_all C gc gs c s HC Cp Mc Sh Nccm) as (P1 & P2 & P3 & P4 & P5 & P6 & P7 & P8 & P9 & P10 & _). auto 12.
Qed.
Lemma honest_handshake C gc gs c s : honest_crypto C -> compatible C gc gs c s ->
  wide_fragments gc -> first_share gc gs -> no_ccm gc gs ->
  smooth C (client_ops C c s) c /\ smooth C (server_ops C c s) s /\
  c_state (run C (client_ops C c s) c) = Connected /\ c_state (run C (server_ops C c s) s) = Connected /\
  linked (mkWorld (run C (client_ops C c s) c) (run C (server_ops C c s) s) [] [] [] [] [] []) /\
  alpn_agreed gc gs (run C (client_ops C c s) c) (run C (server_ops C c s) s).
Proof. intros HC Cp Mc Sh Nccm. destruct (honest_full C gc gs c s HC Cp Mc Sh Nccm) as (P1 & P2 & P3 & P4 & P5 & P6 & _). auto 10. Qed.
Lemma honest_then C gc gs c s w' : honest_crypto C -> compatible C gc gs c s ->
  wide_fragments gc -> first_share gc gs -> no_ccm gc gs ->
  traffic C (mkWorld (run C (client_ops C c s) c) (run C (server_ops C c s) s) [] [] [] [] [] []) w' ->
  w_ab w' = [] -> c_out (w_a w') = [] -> w_got_b w' ++ returned C ORead (w_b w') = w_sent_a w'.
Proof.
  intros HC Cp Mc Sh Nccm T E1 E2. destruct (honest_handshake C gc gs c s HC Cp Mc Sh Nccm) as (_ & _ & _ & _ & L & _).
  exact (proj1 (delivered_all C (hc_correct _ HC) _ w' L T E1 E2)).
Qed.
