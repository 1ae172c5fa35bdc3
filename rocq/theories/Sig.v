(* crypto/signatures.py: the three registries. *)
From Verif Require Import Base Iana Crypto.

(* PublicKeyAlgorithmOID: symbolic values *)
Definition PK_RSAES_PKCS1 := 1.
Definition PK_RSASSA_PSS := 2.
Definition PK_EC := 3.
Definition PK_ED25519 := 4.
Definition PK_ED448 := 5.

(* SignatureAlgorithmOID: symbolic values *)
Definition SO_RSA_SHA256 := 1.
Definition SO_RSA_SHA384 := 2.
Definition SO_RSA_SHA512 := 3.
Definition SO_RSASSA_PSS := 4.
Definition SO_ECDSA_SHA256 := 5.
Definition SO_ECDSA_SHA384 := 6.
Definition SO_ECDSA_SHA512 := 7.
Definition SO_ED25519 := 8.
Definition SO_ED448 := 9.

(* keys of _registry, signatures.py:63-167 *)
Definition signature_suites : list N :=
  [rsa_pkcs1_sha256; rsa_pkcs1_sha384; rsa_pkcs1_sha512;
   rsa_pss_rsae_sha256; rsa_pss_rsae_sha384; rsa_pss_rsae_sha512;
   rsa_pss_pss_sha256; rsa_pss_pss_sha384; rsa_pss_pss_sha512;
   ecdsa_secp256r1_sha256; ecdsa_secp384r1_sha384; ecdsa_secp521r1_sha512;
   ed25519; ed448].

(* signatures.py:37-39 for_public_key_oid *)
Definition for_public_key_oid (oid : N) : res (list N) :=
  if oid =? PK_RSAES_PKCS1 then
    Ok [rsa_pkcs1_sha256; rsa_pkcs1_sha384; rsa_pkcs1_sha512;
        rsa_pss_rsae_sha256; rsa_pss_rsae_sha384; rsa_pss_rsae_sha512]
  else if oid =? PK_RSASSA_PSS then
    Ok [rsa_pss_pss_sha256; rsa_pss_pss_sha384; rsa_pss_pss_sha512]
  else if oid =? PK_EC then
    Ok [ecdsa_secp256r1_sha256; ecdsa_secp384r1_sha384; ecdsa_secp521r1_sha512]
  else if oid =? PK_ED25519 then Ok [ed25519]
  else if oid =? PK_ED448 then Ok [ed448]
  else Err XKey.

(* signatures.py:33-35 from_signature_oid; the last registered class wins for
   RSASSA_PSS *)
Definition from_signature_oid (oid : N) : res N :=
  if oid =? SO_RSA_SHA256 then Ok rsa_pkcs1_sha256
  else if oid =? SO_RSA_SHA384 then Ok rsa_pkcs1_sha384
  else if oid =? SO_RSA_SHA512 then Ok rsa_pkcs1_sha512
  else if oid =? SO_RSASSA_PSS then Ok rsa_pss_pss_sha512
  else if oid =? SO_ECDSA_SHA256 then Ok ecdsa_secp256r1_sha256
  else if oid =? SO_ECDSA_SHA384 then Ok ecdsa_secp384r1_sha384
  else if oid =? SO_ECDSA_SHA512 then Ok ecdsa_secp521r1_sha512
  else if oid =? SO_ED25519 then Ok ed25519
  else if oid =? SO_ED448 then Ok ed448
  else Err XKey.

(* TLSSignatureSuite[scheme](key).verify(signature, message) *)
Definition suite_verify (C : crypto) (scheme : N) (key sig msg : bytes) : res unit :=
  if memN scheme signature_suites then cr_sig_verify C scheme key sig msg else Err XKey.
