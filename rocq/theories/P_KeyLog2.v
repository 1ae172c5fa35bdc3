(* The lines of a handshake that succeeded. *)
From Verif Require Import Base P_Base Iana Crypto Config Serial Ext Msg Hkdf Cipher Kex Sig Ocsp Transcript Conn KeyLog
  S_Hist S_Conn S_State S_Send S_Nonce S_Alert S_Utils S_Keys S_Codec S_Auth S_Server S_Layout S_Kex S_Agree S_KeyLog
  P_Monad P_Frame P_Hist P_Keys P_Auth P_KeyLog P_Agree.
From Verif Require P_Client P_Server P_Server2 P_Order.
Local Open Scope string_scope.
Local Open Scope list_scope.
Local Open Scope N_scope.

Lemma install_both_klog ck civ sk siv x x' : install_both ck civ sk siv x = (Ok tt, x') -> cs_klog x' = cs_klog x.
Proof. intro H. apply (install_both_cov) in H. apply H. Qed.
Lemma handshake_keys_log C suite sd shared th x h klen : hmac_sized C -> In (suite, (h, klen)) suite_table ->
  handshake_keys C suite sd shared th x ->
  cs_klog x = [("CLIENT_HANDSHAKE_TRAFFIC_SECRET", hs_traffic C h Client shared th); ("SERVER_HANDSHAKE_TRAFFIC_SECRET", hs_traffic C h Server shared th)].
Proof.
  intros Hs I (we & re & x1 & x2 & H1 & H2 & L). pose proof (skip_eq _ _ _ _ _ _ _ _ Hs I H1) as ->. clear H1.
  pose proof (suite_of_hash _ _ _ I) as [Eh Ek].
  unfold derive_handshake_secrets in H2. change (negb (cs_state (mkCs suite sd 1 (derived C h (early_secret C h) "derived" (cr_hash C h [])) None None (dir_none we) (dir_none re) []) =? 1)) with false in H2. cbv iota in H2.
  unfold extract_and_advance in H2. cbn [cs_suite cs_salt] in H2. rewrite Eh in H2.
  rewrite extract_eq in H2 by (apply derived_nonempty; exact Hs).
  change (cr_hmac C h (derived C h (early_secret C h) "derived" (cr_hash C h [])) shared) with (handshake_secret C h shared) in H2.
  destruct (derive_secret C h (handshake_secret C h shared) l_derived (hash_empty C h)) as [salt|e] eqn:Es; [|discriminate].
  destruct (derive_hs C suite (handshake_secret C h shared) th) as [s|e] eqn:Ed; [|discriminate].
  destruct (install_both _ _ _ _ _) as [[[]|e] y] eqn:Hi in H2; [|discriminate]. injection H2; intros <-. clear H2.
  apply install_both_klog in Hi. cbn [cs_klog cs_set_fin cs_advance] in Hi.
  destruct L as (_ & _ & _ & _ & _ & _ & _ & _ & _ & _ & _ & _ & ->). cbn [cs_klog cs_logs]. rewrite Hi.
  unfold derive_hs in Ed. rewrite Eh in Ed.
  destruct (derive_secret C h (handshake_secret C h shared) l_chs th) as [cts|] eqn:D1; [|discriminate]. cbn [rbind] in Ed.
  destruct (derive_secret C h (handshake_secret C h shared) l_shs th) as [sts|] eqn:D2; [|discriminate]. cbn [rbind] in Ed.
  repeat match type of Ed with rbind ?m _ = _ => destruct m; [|discriminate]; cbn [rbind] in Ed end.
  injection Ed; intros <-. cbn [h_cts h_sts app].
  apply (derive_secret_eq C h _ "c hs traffic") in D1; [|exact Hs]. apply (derive_secret_eq C h _ "s hs traffic") in D2; [|exact Hs].
  rewrite D1, D2. reflexivity.
Qed.
Lemma application_keys_log C suite sd shared th th_sf x h klen : hmac_sized C -> In (suite, (h, klen)) suite_table ->
  application_keys C suite sd shared th th_sf x -> cs_klog x = five_lines C h shared th th_sf.
Proof.
  intros Hs I (x2 & th_cf & v & x3 & H1 & H2 & L).
  pose proof (handshake_keys_log _ _ _ _ _ _ _ _ Hs I H1) as K1.
  destruct (handshake_keys_full _ _ _ _ _ _ _ _ Hs I H1) as (_ & E1 & E2 & E3 & E4).
  pose proof (suite_of_hash _ _ _ I) as [Eh Ek].
  unfold derive_master_secrets in H2. rewrite E3 in H2. change (negb (2 =? 2)) with false in H2. cbv iota zeta in H2.
  rewrite E1, Eh, E4 in H2. rewrite extract_eq in H2 by (apply derived_nonempty; exact Hs).
  change (cr_hmac C h (derived C h (handshake_secret C h shared) "derived" (cr_hash C h [])) (zeros (digest_size h))) with (master_secret C h shared) in H2.
  destruct (derive_ap C suite (master_secret C h shared) th_sf th_cf) as [s|e] eqn:Ed; [|discriminate].
  destruct (install_both _ _ _ _ x2) as [[[]|e] x4] eqn:Ei; [|discriminate].
  apply install_both_klog in Ei. injection H2; intros <- _.
  destruct L as (_ & _ & _ & _ & _ & _ & _ & _ & _ & _ & _ & _ & ->). cbn [cs_klog cs_logs cs_set_fin]. rewrite Ei, K1.
  unfold derive_ap in Ed. rewrite Eh in Ed.
  destruct (derive_secret C h (master_secret C h shared) l_cap th_sf) as [cts|] eqn:D1; [|discriminate]. cbn [rbind] in Ed.
  destruct (derive_secret C h (master_secret C h shared) l_sap th_sf) as [sts|] eqn:D2; [|discriminate]. cbn [rbind] in Ed.
  destruct (derive_secret C h (master_secret C h shared) l_exp th_sf) as [ex|] eqn:D3; [|discriminate]. cbn [rbind] in Ed.
  repeat match type of Ed with rbind ?m _ = _ => destruct m; [|discriminate]; cbn [rbind] in Ed end.
  injection Ed; intros <-. cbn [a_cts a_sts a_exp app].
  apply (derive_secret_eq C h _ "c ap traffic") in D1; [|exact Hs]. apply (derive_secret_eq C h _ "s ap traffic") in D2; [|exact Hs].
  apply (derive_secret_eq C h _ "exp master") in D3; [|exact Hs].
  rewrite D1, D2, D3. reflexivity.
Qed.
Lemma app_holds C suite sd shared th th_sf x h klen c u : hmac_sized C -> In (suite, (h, klen)) suite_table ->
  application_keys C suite sd shared th th_sf x -> c_cipher c = Some x -> c_cunique c = Some u -> u <> [] ->
  holds (key_lines true c) u (five_lines C h shared th th_sf).
Proof.
  intros Hs I A Ex Eu Nu. apply holds_lines; [exact Eu | exact Nu | | apply five_plain].
  unfold klog. rewrite Ex. eapply application_keys_log; eassumption.
Qed.
Lemma off_silent c : key_lines false c = [].
Proof. unfold key_lines. destruct (c_cunique c) as [[|]|]; reflexivity. Qed.

Section connected.
Variable C : crypto.
Hypothesis As : aead_sized C.
Hypothesis Hs : hmac_sized C.
Hypothesis Hh : hash_sized C.
Lemma client_log g c u : g_side g = Client -> reachable C g c -> c_state c = Connected ->
  Forall (Forall (fun b => 32 <= bN b <= 126)) (g_alpn g) -> host_fine C (c_host c) ->
  c_cunique c = Some u -> u <> [] ->
  exists hello sh ee cd vd sd fd junk suite h hc group pub shared j,
    c_hs c = hello ++ [(Server, SERVER_HELLO, sh); EE ee; Cert cd; CV vd; SFin sd; CFin fd] ++ junk /\ (few c -> junk = []) /\
    suite_hash suite = Some h /\ offers_share C hello group (c_rng c j) /\ answers_share C sh suite group pub /\
    kx_resume C group (c_rng c j) pub = Ok shared /\
    holds (key_lines true c) u (five_lines C h shared
      (heard_hash C h hc false (hello ++ [(Server, SERVER_HELLO, sh)]))
      (heard_hash C h hc false (hello ++ [(Server, SERVER_HELLO, sh); EE ee; Cert cd; CV vd; SFin sd]))).
Proof.
  intros Hg R S Ha Hf Eu Nu. pose proof (P_Client.client_live C g c As Hs Hh Hg R) as (host & ocsp & rng & hl & hc & L).
  unfold P_Client.live in L. rewrite S in L.
  destruct L as (k & ee & cd & vd & sd & fd & nc & key & alg & x & junk & K & (S1 & S2 & S3 & S4) & Eh & _ & _ & _ & _ & _ & _ & _ & _ & _ & Ex & Ak & J).
  destruct K as (_ & K2 & _ & _ & (random & sid & exts & pub & j & Sy & Ek & Kx & Of)).
  exists (P_Client.x_w0 k), (P_Client.x_d1 k), ee, cd, vd, sd, fd, junk, (P_Client.x_suite k), (P_Client.x_h k), hc, (P_Client.x_group k), pub, (P_Client.x_shared k), j.
  rewrite S3. rewrite S1 in Hf.
  split; [rewrite Eh; unfold P_Client.W; rewrite <- app_assoc; reflexivity|].
  split; [intro F; apply J; apply (P_Order.client_few C g c); assumption|].
  split; [exact K2|]. split; [eapply offers_says; eassumption|]. split; [exists random, sid, exts; auto|]. split; [exact Kx|].
  unfold P_Client.H, P_Client.T, P_Client.W in Ak. rewrite <- !app_assoc in Ak.
  destruct (suite_hash_of _ _ K2) as [_ [klen I]]. eapply app_holds; eassumption.
Qed.
Lemma server_log g s u : g_side g = Server -> started C g s -> c_state s = Connected ->
  c_cunique s = Some u -> u <> [] ->
  exists hello sh ee cd vd sd j1 fd j2 dn suite h group sg pub shared j,
    c_hs s = hello ++ [(Server, SERVER_HELLO, sh); EE ee; Cert cd; CV vd; SFin sd] ++ j1 ++ [CFin fd] ++ j2 /\
    (few s -> j1 = [] /\ j2 = []) /\
    suite_hash suite = Some h /\ hellos C g hello dn suite group sg /\ answers_share C sh suite group pub /\
    kx_init C group (c_rng s j) = Ok pub /\
    (exists random sid suites exts l peer, says C None dn (HClientHello random sid suites exts) /\
       ext_get KEY_SHARE exts = Some (EKeyShareReq l) /\ In (group, peer) l /\ kx_resume C group (c_rng s j) peer = Ok shared) /\
    holds (key_lines true s) u (five_lines C h shared
      (rfc_transcript C h (hello ++ [(Server, SERVER_HELLO, sh)]))
      (rfc_transcript C h (hello ++ [(Server, SERVER_HELLO, sh); EE ee; Cert cd; CV vd; SFin sd]))).
Proof.
  intros Hg R S Eu Nu. pose proof (P_Server.server_live C g s As Hs Hh Hg R) as (ocsp & rng & unique & hl & Lu & Ns & _ & L).
  unfold P_Server.live in L. rewrite S in L.
  destruct L as (k & ee & cd & vd & sd & fd & j1 & j2 & x & K & (S1 & S2 & S3 & S4) & _ & En & Fl & Eh & Fy & Ex & Ak & U & J).
  pose proof K as (_ & _ & Sh & _ & Hl & Sr & _ & _ & _ & sid & Ser).
  pose proof Sr as (random & sid' & suites & exts & l & peer & j & Y1 & Y2 & Y3 & Y4 & Y5).
  exists (P_Server.y_w0 k), (P_Server.y_d1 k), ee, cd, vd, sd, j1, fd, j2, (P_Server.y_dn k), (P_Server.y_suite k), (P_Server.y_h k), (P_Server.y_group k), (P_Server.y_sg k), (P_Server.y_pub k), (P_Server.y_shared k), j.
  rewrite S2.
  split; [rewrite Eh; unfold P_Server.W; rewrite <- app_assoc; reflexivity|].
  split; [intro F; destruct (J F) as (-> & -> & _); auto|]. split; [exact Sh|]. split; [exact Hl|].
  split.
  { exists unique, sid, (ext_dict [ESupVersionsResp TLS_1_3; EKeyShareResp (P_Server.y_group k) (P_Server.y_pub k)]).
    split; [|reflexivity]. apply (P_Codec.content_roundtrip C (Some None) (KHandshake _)); [|exact Ser].
    cbn [content_ok message_ok]. split; [exact Lu|]. split; [split; [discriminate | intro E; destruct Ns; exact E]|].
    split; [cbn; repeat constructor; cbn; intuition discriminate|].
    repeat constructor; cbn; tauto. }
  split; [exact Y4|]. split; [exists random, sid', suites, exts, l, peer; auto|].
  rewrite (P_Server2.t_rfc C g rng unique k _ K) in Ak by reflexivity.
  rewrite (P_Server2.t_rfc C g rng unique k _ K) in Ak by reflexivity.
  unfold P_Server.W in Ak. rewrite <- !app_assoc in Ak. rewrite app_nil_r in Ak.
  destruct (suite_hash_of _ _ Sh) as [_ [klen I]]. eapply app_holds; eassumption.
Qed.
End connected.
