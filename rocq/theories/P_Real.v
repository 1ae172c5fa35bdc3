(* The real primitives meet the hypotheses that theorems put on external code. *)
From Verif Require Import Base P_Base Iana Crypto Config Conn Toy Real S_Utils S_Hist S_Keys S_Honest P_Alert.
Local Open Scope list_scope.
Local Open Scope N_scope.

Lemma real_hash_sized : hash_sized real.
Proof. intros [|] m; change (cr_hash real) with sha; unfold sha, sha256, sha384; rewrite ?blen_app, ?blen_be_bytes; reflexivity. Qed.
Lemma real_hmac_sized : hmac_sized real.
Proof. intros h k m. exact (real_hash_sized h _). Qed.
Lemma xor_with_len d : forall ks, length (xor_with d ks) = length d.
Proof. induction d as [|x d IH]; intros [|y ks]; cbn [xor_with length]; [reflexivity.. | rewrite IH; reflexivity]. Qed.
Lemma xor_with_twice d : forall ks, xor_with (xor_with d ks) ks = d.
Proof.
  induction d as [|x d IH]; intros [|y ks]; cbn [xor_with]; [reflexivity.. |]. f_equal; [|apply IH].
  rewrite bN_Nb by (apply (lxor_lt _ _ 8); apply bN_lt). rewrite N.lxor_assoc, N.lxor_nilpotent, N.lxor_0_r. apply Nb_bN.
Qed.
Lemma real_tag_len suite key nonce data ct aad : blen (real_tag suite key nonce data ct aad) = Cipher.tag_length suite.
Proof.
  unfold real_tag, Cipher.tag_length, chacha_tag, ccm_tag, gcm_tag, le_bytes, blen.
  destruct (suite =? TLS_CHACHA20_POLY1305_SHA256) eqn:A; [apply N.eqb_eq in A; subst suite; rewrite rev_length, length_be_bytes; reflexivity|].
  destruct (suite =? TLS_AES_128_CCM_SHA256) eqn:B; [apply N.eqb_eq in B; subst suite; rewrite length_be_bytes; reflexivity|].
  destruct (suite =? TLS_AES_128_CCM_8_SHA256); rewrite length_be_bytes; reflexivity.
Qed.
Lemma real_aead_sized : aead_sized real.
Proof.
  intros suite key nonce data aad. change (cr_seal real) with real_seal. unfold real_seal. rewrite blen_app, real_tag_len.
  unfold blen. rewrite xor_with_len. reflexivity.
Qed.
Lemma real_aead_correct : aead_correct real.
Proof.
  intros suite key nonce data aad. change (cr_seal real) with real_seal. change (cr_open real) with real_open. unfold real_open.
  assert (T : Cipher.tag_length suite = if suite =? TLS_AES_128_CCM_8_SHA256 then 8 else 16) by reflexivity.
  set (n := if suite =? TLS_AES_128_CCM_8_SHA256 then 8 else 16) in *.
  pose proof (real_aead_sized suite key nonce data aad) as L. change (cr_seal real) with real_seal in L. rewrite T in L. rewrite L.
  replace (blen data + n <? n) with false by (symmetry; apply N.ltb_ge; lia). rewrite N.add_sub.
  unfold real_seal. set (ct := xor_with data _). assert (E : blen ct = blen data) by (unfold blen, ct; rewrite xor_with_len; reflexivity).
  rewrite <- E, btake_app_exact, bdrop_app_exact. rewrite E.
  assert (X : xor_with ct (real_stream suite key nonce (blen data)) = data) by apply xor_with_twice. rewrite X, beqb_refl. reflexivity.
Qed.
Lemma real_honest : S_Honest.honest_crypto real.
Proof. constructor; [exact real_aead_correct | exact real_aead_sized | exact real_hmac_sized | exact real_hash_sized]. Qed.
(* certificates, signatures and key exchanges are those of [toy] *)
Lemma real_compatible gc gs c s : S_Honest.compatible toy gc gs c s -> S_Honest.compatible real gc gs c s.
Proof.
  intros [A B D E F G H I J]. constructor; try assumption.
  destruct I as (leaf & rest & key & st & I1 & I2 & I3 & I4 & I5 & I6 & I7).
  exists leaf, rest, key, st. split; [exact I1|]. split; [exact I2|]. split; [exact I3|]. split; [exact I4|].
  split; [|split; [exact I6 | exact I7]].
  destruct I5 as [I5 | su iss re url req der til P1 P2 P3 P4 P5 P6 P7 | su iss re url req der P1 P2 P3 P4 P5 P6 P7].
  - apply st_off. exact I5.
  - eapply st_good; eassumption.
  - eapply st_bad; eassumption.
Qed.
