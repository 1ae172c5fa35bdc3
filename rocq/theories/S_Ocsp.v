(* RFC 6960: when an OCSP answer tells that a certificate is good. *)
From Verif Require Import Base Iana Crypto Ext Msg Sig.

Definition oid_schemes : list (N * N) :=
  [(SO_RSA_SHA256, rsa_pkcs1_sha256); (SO_RSA_SHA384, rsa_pkcs1_sha384); (SO_RSA_SHA512, rsa_pkcs1_sha512);
   (SO_RSASSA_PSS, rsa_pss_pss_sha512); (SO_ECDSA_SHA256, ecdsa_secp256r1_sha256);
   (SO_ECDSA_SHA384, ecdsa_secp384r1_sha384); (SO_ECDSA_SHA512, ecdsa_secp521r1_sha512);
   (SO_ED25519, ed25519); (SO_ED448, ed448)].

(* the response answers the request, says good, is current and is signed by the issuer *)
Definition ocsp_good (C : crypto) (issuer req_der res_der : bytes) (until : N) : Prop :=
  exists rq rs scheme,
    cr_load_ocsp_req C req_der = Ok rq /\ cr_load_ocsp_res C res_der = Ok rs /\
    rs_successful rs = true /\ rs_good rs = true /\
    rs_name_hash rs = rq_name_hash rq /\ rs_key_hash rs = rq_key_hash rq /\ rs_serial rs = rq_serial rq /\
    rs_this_update rs <= cr_now C /\ rs_next_update rs = Some until /\ cr_now C <= until /\
    In (rs_sig_oid rs, scheme) oid_schemes /\
    cr_sig_verify C scheme (cr_cert_pubkey C issuer) (rs_signature rs) (rs_tbs rs) = Ok tt.

(* the status of the certificate [e], whose issuer is [i]: stapled or, when there
   is a service and the certificate names a responder, downloaded *)
Definition status_ok (C : crypto) (service : bool) (e i : centry) : Prop :=
  match ext_get STATUS_REQUEST (en_exts e) with
  | Some (EOcspStatus der) =>
    exists req until, cr_make_ocsp_req C (en_data e) (en_data i) = Ok req /\ ocsp_good C (en_data i) req der until
  | _ => service = true -> forall url, cr_ocsp_url C (en_data e) = Ok (Some url) -> url <> [] ->
    exists req der until, cr_make_ocsp_req C (en_data e) (en_data i) = Ok req /\ cr_ocsp_fetch C (Some url) req = Ok der /\
      ocsp_good C (en_data i) req der until
  end.
Definition statuses_ok (C : crypto) (service : bool) (l : list centry) : Prop :=
  forall pre e i post, l = pre ++ e :: i :: post -> status_ok C service e i.
