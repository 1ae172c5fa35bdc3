(* An instance of C79: keys with and without leading zeros. *)
From Verif Require Import Base P_Base Iana Crypto Config Cipher Kex Conn S_Hist S_Conn S_Auth S_Secret Toy.

(* the library used reads its keys as numbers *)
Definition shy : crypto := {|
  cr_hash := cr_hash toy; cr_hmac := cr_hmac toy; cr_seal := cr_seal toy; cr_open := cr_open toy;
  cr_kx_pub := fun g p => cr_kx_pub toy g (lstrip0 p);
  cr_kx_shared := fun g p peer => cr_kx_shared toy g (lstrip0 p) peer;
  cr_sign := fun a k m => cr_sign toy a (lstrip0 k) m;
  cr_sig_verify := cr_sig_verify toy; cr_load_cert := cr_load_cert toy; cr_load_pubkey := cr_load_pubkey toy;
  cr_cert_pubkey := cr_cert_pubkey toy; cr_cert_pubkey_oid := cr_cert_pubkey_oid toy; cr_cert_sig_oid := cr_cert_sig_oid toy;
  cr_cert_hash_alg := cr_cert_hash_alg toy; cr_verify_chain := cr_verify_chain toy; cr_is_ip := cr_is_ip toy;
  cr_idna_decode := cr_idna_decode toy; cr_idna_encode := cr_idna_encode toy; cr_load_ocsp_req := cr_load_ocsp_req toy;
  cr_load_ocsp_res := cr_load_ocsp_res toy; cr_ocsp_url := cr_ocsp_url toy; cr_make_ocsp_req := cr_make_ocsp_req toy;
  cr_ocsp_fetch := cr_ocsp_fetch toy; cr_now := cr_now toy; cr_sig_args := cr_sig_args toy |}.
Definition shy_rng (r : N -> bytes) (i : N) : bytes := x00 :: r i.
Definition shy_key (k : option bytes) : option bytes := option_map (cons x00) k.
Lemma shy_twins r i : twin_keys shy (r i) (shy_rng r i).
Proof. intro group. unfold kx_init, kx_resume, shy_rng. destruct (negb _); [split; reflexivity|]. destruct (ffdhe_params group); split; reflexivity. Qed.
Lemma shy_signers k : twin_signers shy k (shy_key k).
Proof. destruct k; [intros alg th; reflexivity | exact I]. Qed.
