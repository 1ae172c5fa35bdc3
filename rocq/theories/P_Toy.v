(* The toy instance meets the hypotheses the theorems put on external code. *)
From Verif Require Import Base P_Base Iana Crypto Config Conn Toy S_Utils S_Hist S_Keys.

Lemma toy_hmac_sized : hmac_sized toy.
Proof. intros h k m. destruct h; exact (blen_be_bytes _ _). Qed.

Lemma toy_open_seal suite key nonce data aad :
  toy_open suite key nonce (toy_seal suite key nonce data aad) aad = Some data.
Proof.
  unfold toy_open, toy_seal.
  assert (blen (toy_tag suite key nonce data aad) =
          if suite =? TLS_AES_128_CCM_8_SHA256 then 8 else 16) as E.
  { unfold toy_tag. destruct (suite =? _); apply blen_be_bytes. }
  rewrite blen_app, E.
  assert (blen data + (if suite =? TLS_AES_128_CCM_8_SHA256 then 8 else 16)
          <? (if suite =? TLS_AES_128_CCM_8_SHA256 then 8 else 16) = false) as ->.
  { apply N.ltb_ge. lia. }
  rewrite N.add_sub, btake_app_exact, bdrop_app_exact, beqb_refl. reflexivity.
Qed.

Lemma toy_c0_created : created toy_client toy_c0.
Proof.
  split; [vm_compute; reflexivity|]. split; [cbn; tauto|].
  exists false, (Some (ascii_bytes "example.org"%string)), false, (toy_rng 1 100), (toy_rng 1). vm_compute. reflexivity.
Qed.
Lemma toy_s0_created : created toy_server toy_s0.
Proof.
  split; [vm_compute; reflexivity|]. split; [cbn; tauto|].
  exists false, None, false, (toy_rng 2 100), (toy_rng 2). vm_compute. reflexivity.
Qed.
Lemma toy_aead_sized : aead_sized toy.
Proof.
  intros suite key nonce data aad. change (cr_seal toy) with toy_seal. unfold toy_seal, toy_tag, Cipher.tag_length.
  rewrite blen_app. destruct (suite =? _); rewrite blen_be_bytes; reflexivity.
Qed.
Lemma toy_aead_correct : aead_correct toy.
Proof. exact toy_open_seal. Qed.
Lemma toy_hash_sized : hash_sized toy.
Proof. intros h m. destruct h; exact (blen_be_bytes _ _). Qed.
