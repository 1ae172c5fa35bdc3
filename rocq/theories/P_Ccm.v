(* A connection cannot be established with a suite of CCM. *)
From Verif Require Import Base P_Base Iana Crypto Config Serial Ext Msg Hkdf Cipher Kex Sig Ocsp Transcript Conn
  S_Hist S_Conn S_State S_Send S_Nonce S_Alert S_Utils S_Keys S_Auth S_Server
  P_Monad P_Frame P_Hist P_Send P_Wp P_State P_Speak P_Alert P_Keys P_Tr P_Auth P_Client P_Client2 P_Flight P_Server P_Server2.

Lemma install_limit a b d e x x' : install_both a b d e x = (Ok tt, x') -> usage_limit (cs_suite x) <> None.
Proof.
  unfold install_both, install. intros E U. rewrite U in E. destruct (cs_side x); discriminate E.
Qed.
Lemma keys_limit C suite sd shared th x : handshake_keys C suite sd shared th x -> usage_limit suite <> None.
Proof.
  intros (we & re & x1 & x2 & E1 & E2 & _).
  assert (S1 : cs_suite x1 = suite).
  { unfold skip_early_secrets in E1. cbn in E1. destruct (extract_and_advance C _ _) as [[s|e] y] eqn:Ee; [|discriminate E1].
    unfold extract_and_advance in Ee.
    repeat match type of Ee with context [match ?q with _ => _ end] => destruct q eqn:?; try discriminate Ee end;
      injection Ee; intros <- _; repeat match type of E1 with context [match ?q with _ => _ end] => destruct q eqn:?; try discriminate E1 end;
      injection E1; intros <-; reflexivity. }
  unfold derive_handshake_secrets in E2. destruct (negb _); [discriminate E2|].
  destruct (extract_and_advance C shared x1) as [[s|e] y] eqn:Ee; [|discriminate E2].
  assert (S2 : cs_suite y = suite).
  { unfold extract_and_advance in Ee.
    repeat match type of Ee with context [match ?q with _ => _ end] => destruct q eqn:?; try discriminate Ee end;
      injection Ee; intros <- _; exact S1. }
  destruct (derive_hs _ _ _ _) as [k|e]; [|discriminate E2]. cbv zeta in E2.
  destruct (install_both _ _ _ _ _) as [[[]|e] z] eqn:Ei; [|discriminate E2].
  apply install_limit in Ei. cbn in Ei. rewrite S2 in Ei. exact Ei.
Qed.
Lemma limit_suites s : usage_limit s <> None ->
  In s [TLS_AES_128_GCM_SHA256; TLS_AES_256_GCM_SHA384; TLS_CHACHA20_POLY1305_SHA256].
Proof.
  unfold usage_limit. intro U.
  destruct (s =? TLS_AES_128_GCM_SHA256) eqn:E1; [apply N.eqb_eq in E1; cbn; auto|].
  destruct (s =? TLS_AES_256_GCM_SHA384) eqn:E2; [apply N.eqb_eq in E2; cbn; auto|].
  destruct (s =? TLS_CHACHA20_POLY1305_SHA256) eqn:E3; [apply N.eqb_eq in E3; cbn; auto|].
  destruct (U eq_refl).
Qed.

Lemma client_no_ccm C g c : aead_sized C -> hmac_sized C -> hash_sized C -> g_side g = Client -> reachable C g c ->
  c_state c = Connected -> exists nc suite, c_nc c = Some nc /\ n_suite nc = Some suite /\
    In suite [TLS_AES_128_GCM_SHA256; TLS_AES_256_GCM_SHA384; TLS_CHACHA20_POLY1305_SHA256].
Proof.
  intros As Hs Hh Hg R S.
  destruct (client_connected C g c As Hs Hh Hg R S) as (hello & sh & ee & cd & vd & sd & fd & junk & n & suite & h & hc & group & shared & key & alg &
    _ & _ & _ & _ & _ & _ & (nc & E1 & E2 & _) & _ & _ & _ & _ & (x & _ & (x2 & th & v & x3 & K & _))).
  exists nc, suite. split; [exact E1|]. split; [exact E2|]. apply limit_suites. eapply keys_limit. exact K.
Qed.
Lemma server_no_ccm C g c : aead_sized C -> hmac_sized C -> hash_sized C -> g_side g = Server -> started C g c ->
  c_state c = Connected -> exists nc suite, c_nc c = Some nc /\ n_suite nc = Some suite /\
    In suite [TLS_AES_128_GCM_SHA256; TLS_AES_256_GCM_SHA384; TLS_CHACHA20_POLY1305_SHA256].
Proof.
  intros As Hs Hh Hg R S.
  destruct (server_live C g c As Hs Hh Hg R) as (ocsp & rng & unique & hl & _ & _ & _ & L). unfold live in L. rewrite S in L.
  destruct L as (k & ee & cd & vd & sd & fd & j1 & j2 & x & K & _ & _ & En & _ & _ & _ & _ & _ & U & _).
  destruct K as (_ & _ & _ & _ & _ & _ & _ & Sn & _).
  exists (y_nc k), (y_suite k). split; [exact En|]. split; [exact Sn|]. apply limit_suites. exact U.
Qed.
