(* The order of the messages and the transcript, on both sides. *)
From Verif Require Import Base P_Base Iana Crypto Config Serial Ext Msg Hkdf Cipher Kex Sig Ocsp Transcript Conn
  S_Hist S_Conn S_State S_Send S_Nonce S_Alert S_Utils S_Keys S_Auth S_Server
  P_Monad P_Frame P_Hist P_Send P_Wp P_State P_Speak P_Alert P_Keys P_Tr P_Count P_Auth P_Client P_Client2 P_Flight P_Server P_Server2.

Lemma install_limit ck civ sk siv x x' : install_both ck civ sk siv x = (Ok tt, x') -> usage_limit (cs_suite x) <> None.
Proof. unfold install_both, install. destruct (cs_side x); destruct (usage_limit (cs_suite x)); intro E; discriminate. Qed.
Lemma app_limit C suite sd shared th th_sf x h klen : hmac_sized C -> In (suite, (h, klen)) suite_table ->
  application_keys C suite sd shared th th_sf x -> usage_limit (cs_suite x) <> None.
Proof.
  intros Hs I A. rewrite (app_suite C Hs _ _ _ _ _ _ _ _ I A).
  destruct A as (x2 & th_cf & v & x3 & H1 & H2 & L). destruct (handshake_keys_full _ _ _ _ _ _ _ _ Hs I H1) as (_ & E1 & _ & E3 & _).
  unfold derive_master_secrets in H2. rewrite E3 in H2. change (negb (2 =? 2)) with false in H2. cbv iota zeta in H2.
  destruct (derive_ap _ _ _ _ _) as [s|e]; [|discriminate].
  destruct (install_both _ _ _ _ x2) as [[[]|e] x4] eqn:Ei; [|discriminate]. apply install_limit in Ei. rewrite E1 in Ei. exact Ei.
Qed.
Lemma client_few C g c : aead_sized C -> hmac_sized C -> hash_sized C -> g_side g = Client -> reachable C g c ->
  few c -> c_state c = Connected -> room c.
Proof.
  intros As Hs Hh Hg R F S. destruct (client_connected C g c As Hs Hh Hg R S) as (hello & sh & ee & cd & vd & sd & fd & junk & n & suite & h & hc & group & shared & key & alg & H1 & H2 & H3 & H4 & H5 & Sh & H7 & H8 & H9 & H10 & H11 & x & Ex & Ak).
  apply few_room; [eapply reachable_count; exact R | exact F |]. intros y Ey. rewrite Ex in Ey. injection Ey; intros <-.
  destruct (suite_hash_of _ _ Sh) as [_ [klen Is]]. eapply app_limit; eassumption.
Qed.
Lemma order_client C g c : aead_sized C -> hmac_sized C -> hash_sized C -> g_side g = Client -> reachable C g c ->
  running (c_state c) = true -> few c -> exists n, handshake_prefix n (c_hs c).
Proof. intros As Hs Hh Hg R S F. apply (client_order C g c As Hs Hh Hg R S). apply (client_few C g c); assumption. Qed.
Lemma transcript_client C g c : aead_sized C -> hmac_sized C -> hash_sized C -> g_side g = Client -> reachable C g c ->
  hashing (c_state c) = true -> few c -> forallb (fun m => negb (is_retry m)) (c_hs c) = true ->
  exists nc suite h, c_nc c = Some nc /\ n_suite nc = Some suite /\ suite_hash suite = Some h /\
    tr_digest C (c_tr c) = Ok (rfc_transcript C h (c_hs c)).
Proof.
  intros As Hs Hh Hg R S F N. destruct (client_transcript C g c As Hs Hh Hg R S) as (nc & suite & h & hc & E1 & E2 & E3 & E4).
  { apply (client_few C g c); assumption. }
  exists nc, suite, h. repeat (split; [assumption|]). rewrite E4, thash_plain by exact N. reflexivity.
Qed.
Lemma transcript_same C g c g' s : aead_sized C -> hmac_sized C -> hash_sized C ->
  g_side g = Client -> reachable C g c -> hashing (c_state c) = true -> few c ->
  g_side g' = Server -> started C g' s -> chosen (c_state s) = true -> few s ->
  c_hs c = c_hs s -> forallb (fun m => negb (is_retry m)) (c_hs c) = true ->
  option_map n_suite (c_nc c) = option_map n_suite (c_nc s) -> tr_digest C (c_tr c) = tr_digest C (c_tr s).
Proof.
  intros As Hs Hh Hg R S F Hg' R' S' F' E N En.
  destruct (transcript_client C g c As Hs Hh Hg R S F N) as (nc & suite & h & E1 & E2 & E3 & E4).
  destruct (server_transcript C g' s As Hs Hh Hg' R' S' F') as (nc' & suite' & h' & E1' & E2' & E3' & E4').
  rewrite E1, E1' in En. cbn in En. rewrite E2, E2' in En. injection En; intros <-. rewrite E3 in E3'. injection E3'; intros <-.
  rewrite E4, E4', E. reflexivity.
Qed.
