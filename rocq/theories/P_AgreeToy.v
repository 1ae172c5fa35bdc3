(* The toy endpoints, for T_Agree; and a crypto whose hash is constant, with
   which a handshake after a HelloRetryRequest succeeds. *)
From Verif Require Import Base Iana Crypto Config Conn S_Hist S_Conn S_Send S_Utils S_Keys S_Auth S_Server S_Codec S_Agree Toy P_Toy P_HonestToy.

Lemma toy_commutes i j : dh_commutes toy (toy_rng i) (toy_rng j).
Proof.
  intros group m n za zb A B. unfold toy in A, B. cbn [cr_kx_shared cr_kx_pub] in A, B.
  destruct (beqb (toy_rng j n) []); [discriminate|]. destruct (beqb (toy_rng i m) []); [discriminate|].
  rewrite xor_comm in B. congruence.
Qed.

Lemma same_start_at (l : list hmsg) i : match nth_error l i with Some (Server, 20, d) => True | _ => False end -> same_start l l.
Proof.
  destruct (nth_error l i) as [[[sd ty] d]|] eqn:E; [|intros []]. apply nth_error_split in E as (a & b & E & _). intro H.
  destruct sd; [destruct H|]. assert (ty = 20) as -> by (destruct (N.eqb_spec ty 20) as [K|K]; [exact K|]; exfalso; revert H K; clear; intros;
    destruct ty as [|p]; [destruct H|]; do 5 (destruct p as [p|p|]; try destruct H); apply K; reflexivity).
  exists a, d, b, b. split; exact E.
Qed.

Definition flat : crypto := {|
  cr_hash := fun h _ => be_bytes (N.to_nat (digest_size h)) 1;
  cr_hmac := fun h _ _ => be_bytes (N.to_nat (digest_size h)) 2;
  cr_seal := cr_seal toy; cr_open := cr_open toy; cr_kx_pub := cr_kx_pub toy; cr_kx_shared := cr_kx_shared toy;
  cr_sign := cr_sign toy; cr_sig_verify := cr_sig_verify toy; cr_load_cert := cr_load_cert toy; cr_load_pubkey := cr_load_pubkey toy;
  cr_cert_pubkey := cr_cert_pubkey toy; cr_cert_pubkey_oid := cr_cert_pubkey_oid toy; cr_cert_sig_oid := cr_cert_sig_oid toy;
  cr_cert_hash_alg := cr_cert_hash_alg toy; cr_verify_chain := cr_verify_chain toy; cr_is_ip := cr_is_ip toy;
  cr_idna_decode := cr_idna_decode toy; cr_idna_encode := cr_idna_encode toy; cr_load_ocsp_req := cr_load_ocsp_req toy;
  cr_load_ocsp_res := cr_load_ocsp_res toy; cr_ocsp_url := cr_ocsp_url toy; cr_make_ocsp_req := cr_make_ocsp_req toy;
  cr_ocsp_fetch := cr_ocsp_fetch toy; cr_now := cr_now toy; cr_sig_args := cr_sig_args toy |}.
Lemma flat_aead_sized : aead_sized flat.
Proof. exact toy_aead_sized. Qed.
Lemma flat_hmac_sized : hmac_sized flat.
Proof. intros [] k m; vm_compute; reflexivity. Qed.
Lemma flat_hash_sized : hash_sized flat.
Proof. intros [] m; vm_compute; reflexivity. Qed.

Definition flat_server : config :=
  mkConfig Server toy_suites [secp256r1; x25519] [ed25519; ed448] None None 5 []
    (Some toy_cert) None (Some [toy_cert]) 16384 true
    [ascii_bytes "http/1.1"%string; ascii_bytes "h2"%string] [].
Definition flat_s0 : conn := get_ok (new_conn false flat_server None false (toy_rng 2 100) (toy_rng 2)).
Definition flat_c1 := run flat [OInit] toy_c0.
Definition flat_s1 := run flat [OInit; ORecv (c_out flat_c1)] flat_s0.
Definition flat_c2 := run flat [OFlush; ORecv (c_out flat_s1)] flat_c1.
Definition flat_s2 := run flat [OFlush; ORecv (c_out flat_c2)] flat_s1.
Definition flat_ops_c := [OInit; OFlush; ORecv (c_out flat_s1); OFlush; ORecv (c_out flat_s2)].
Definition flat_c := run flat flat_ops_c toy_c0.
Definition flat_ops_s := [OInit; ORecv (c_out flat_c1); OFlush; ORecv (c_out flat_c2); OFlush; ORecv (c_out flat_c)].
Definition flat_s := run flat flat_ops_s flat_s0.
Lemma flat_s0_created : created flat_server flat_s0.
Proof.
  split; [vm_compute; reflexivity|]. split; [cbn; tauto|].
  exists false, None, false, (toy_rng 2 100), (toy_rng 2). reflexivity.
Qed.
Lemma flat_s0_random : own_random flat_s0.
Proof. exists (toy_rng 2 100). split; [vm_compute; reflexivity|]. split; [vm_compute; reflexivity | discriminate]. Qed.
Lemma flat_c_reachable : reachable flat toy_client flat_c.
Proof. exists toy_c0, flat_ops_c. split; [exact toy_c0_created | reflexivity]. Qed.
Lemma flat_s_started : started flat flat_server flat_s.
Proof. exists flat_s0, flat_ops_s. split; [exact flat_s0_created|]. split; [exact flat_s0_random | reflexivity]. Qed.
