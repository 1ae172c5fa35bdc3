(* wait_certificate.py:72-91, configuration.py:94-100: who verifies a chain, and for whom *)
From Verif Require Import Base Crypto.

(* x509.DNSName and x509.IPAddress *)
Inductive subject := SDns (name : str) | SIp (address : str).
(* cryptography's DNSName raises ValueError for a str that is not ASCII *)
Definition dns_name (s : str) : res subject :=
  if forallb (fun b => bN b <? 128) s then Ok (SDns s) else Err XValue.
(* configuration.py:94-100: PolicyBuilder.store() raises TypeError for None.
   max_chain_depth() is not told apart from the depth. *)
Definition policy_builder (store : option N) : res N :=
  match store with Some k => Ok k | None => Err XType end.
(* wait_certificate.py:79-91.  No subject stands for build_client_verifier();
   ipaddress.ip_address is [is_ip]. *)
Definition get_verifier (is_ip : str -> bool) (store : option N) (host : option str) : res (N * option subject) :=
  match host with
  | None | Some [] => let* k := policy_builder store in Ok (k, None)
  | Some h =>
    let* s := (if is_ip h then Ok (SIp h) else dns_name h) in
    let* k := policy_builder store in
    Ok (k, Some s)
  end.
(* the verifiers of cryptography: store, depth, subject, leaf, intermediates *)
Definition verifiers := N -> N -> option subject -> bytes -> list bytes -> res unit.
(* wait_certificate.py:72-77, what is raised in the try *)
Definition verify_chain (is_ip : str -> bool) (V : verifiers) (store : option N) (depth : N) (host : option str)
  (leaf : bytes) (rest : list bytes) : res unit :=
  let* v := get_verifier is_ip store host in
  V (fst v) depth (snd v) leaf rest.

(* the library with these verifiers *)
Definition with_verifiers (V : verifiers) (C : crypto) : crypto := {|
  cr_hash := cr_hash C; cr_hmac := cr_hmac C; cr_seal := cr_seal C; cr_open := cr_open C;
  cr_kx_pub := cr_kx_pub C; cr_kx_shared := cr_kx_shared C; cr_sign := cr_sign C; cr_sig_verify := cr_sig_verify C;
  cr_load_cert := cr_load_cert C; cr_load_pubkey := cr_load_pubkey C; cr_cert_pubkey := cr_cert_pubkey C;
  cr_cert_pubkey_oid := cr_cert_pubkey_oid C; cr_cert_sig_oid := cr_cert_sig_oid C; cr_cert_hash_alg := cr_cert_hash_alg C;
  cr_verify_chain := verify_chain (cr_is_ip C) V; cr_is_ip := cr_is_ip C; cr_idna_decode := cr_idna_decode C; cr_idna_encode := cr_idna_encode C;
  cr_load_ocsp_req := cr_load_ocsp_req C; cr_load_ocsp_res := cr_load_ocsp_res C; cr_ocsp_url := cr_ocsp_url C;
  cr_make_ocsp_req := cr_make_ocsp_req C; cr_ocsp_fetch := cr_ocsp_fetch C; cr_now := cr_now C; cr_sig_args := cr_sig_args C |}.
