(* crypto/ocsp.py:21-30: where the answers about a certificate are found *)
From Verif Require Import Base Crypto.

(* cryptography's AccessDescription: access_method as a number, OCSP being 1,
   and access_location.value.  A location that is not a URI is not told apart. *)
Record adesc := mkDesc { ad_method : N; ad_location : bytes }.
Definition AD_OCSP : N := 1.
(* cryptography.x509.ExtensionNotFound, not a ValueError *)
Definition not_found : exn := XOther 1.

(* crypto/ocsp.py:21-30.  [aia]: the descriptions of the extension
   authorityInfoAccess of the certificate, None when it has no such extension:
   get_extension_for_oid raises, the default of next() is not reached. *)
Definition get_ocsp_url (aia : option (list adesc)) : res (option bytes) :=
  match aia with
  | None => Err not_found
  | Some l => Ok (option_map ad_location (find (fun d => ad_method d =? AD_OCSP) l))
  end.

(* the library with certificates that have these extensions *)
Definition with_aia (aia : bytes -> option (list adesc)) (C : crypto) : crypto := {|
  cr_hash := cr_hash C; cr_hmac := cr_hmac C; cr_seal := cr_seal C; cr_open := cr_open C;
  cr_kx_pub := cr_kx_pub C; cr_kx_shared := cr_kx_shared C; cr_sign := cr_sign C; cr_sig_verify := cr_sig_verify C;
  cr_load_cert := cr_load_cert C; cr_load_pubkey := cr_load_pubkey C; cr_cert_pubkey := cr_cert_pubkey C;
  cr_cert_pubkey_oid := cr_cert_pubkey_oid C; cr_cert_sig_oid := cr_cert_sig_oid C; cr_cert_hash_alg := cr_cert_hash_alg C;
  cr_verify_chain := cr_verify_chain C; cr_is_ip := cr_is_ip C; cr_idna_decode := cr_idna_decode C; cr_idna_encode := cr_idna_encode C;
  cr_load_ocsp_req := cr_load_ocsp_req C; cr_load_ocsp_res := cr_load_ocsp_res C; cr_ocsp_url := fun cert => get_ocsp_url (aia cert);
  cr_make_ocsp_req := cr_make_ocsp_req C; cr_ocsp_fetch := cr_ocsp_fetch C; cr_now := cr_now C; cr_sig_args := cr_sig_args C |}.
