(* Everything the library obtains from `cryptography`, `hashlib`, `hmac`,
   `idna`, `ipaddress`, the OCSP service and the clock.  Theorems quantify over
   every value of this record. *)
From Verif Require Import Base Iana.

Inductive hashalg := SHA256 | SHA384.
Definition hashalg_eqb (a b : hashalg) : bool :=
  match a, b with SHA256, SHA256 | SHA384, SHA384 => true | _, _ => false end.
(* hashlib: digest_size *)
Definition digest_size (h : hashalg) : N := match h with SHA256 => 32 | SHA384 => 48 end.

(* A loaded OCSP request or response (cryptography.x509.ocsp), as the fields
   read by crypto/ocsp.py:40-91. *)
Record ocsp_req := mkOcspReq {
  rq_name_hash : bytes; rq_key_hash : bytes; rq_serial : N }.
Record ocsp_res := mkOcspRes {
  rs_successful : bool; rs_good : bool;
  rs_name_hash : bytes; rs_key_hash : bytes; rs_serial : N;
  rs_this_update : N; rs_next_update : option N;
  rs_sig_oid : N; rs_hash_alg : N; rs_signature : bytes; rs_tbs : bytes }.

Record crypto := mkCrypto {
  cr_hash : hashalg -> bytes -> bytes;
  cr_hmac : hashalg -> bytes -> bytes -> bytes;               (* key, message *)
  (* suite, key, nonce, data, associated data *)
  cr_seal : N -> bytes -> bytes -> bytes -> bytes -> bytes;
  cr_open : N -> bytes -> bytes -> bytes -> bytes -> option bytes;
  (* X25519, X448 and the NIST curves: group, private key *)
  cr_kx_pub : N -> bytes -> bytes;
  cr_kx_shared : N -> bytes -> bytes -> res bytes;
  (* signature scheme, key, message (and signature) *)
  cr_sign : N -> bytes -> bytes -> res bytes;
  cr_sig_verify : N -> bytes -> bytes -> bytes -> res unit;   (* scheme, key, signature, message *)
  (* certificates and public keys are represented by their DER encoding *)
  cr_load_cert : bytes -> res bytes;
  cr_load_pubkey : bytes -> res bytes;
  cr_cert_pubkey : bytes -> bytes;
  cr_cert_pubkey_oid : bytes -> N;
  cr_cert_sig_oid : bytes -> N;
  cr_cert_hash_alg : bytes -> N;
  (* trust store, max depth, host name, leaf, intermediates *)
  cr_verify_chain : option N -> N -> option str -> bytes -> list bytes -> res unit;
  cr_is_ip : str -> bool;
  cr_idna_decode : bytes -> res str;
  cr_idna_encode : str -> res bytes;
  cr_load_ocsp_req : bytes -> res ocsp_req;
  cr_load_ocsp_res : bytes -> res ocsp_res;
  cr_ocsp_url : bytes -> res (option bytes);
  cr_make_ocsp_req : bytes -> bytes -> res bytes;
  cr_ocsp_fetch : option bytes -> bytes -> res bytes;
  cr_now : N;
  (* whether InvalidSignature carries a message in its args *)
  cr_sig_args : bool
}.
