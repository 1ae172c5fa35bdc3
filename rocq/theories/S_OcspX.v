(* RFC 6960 section 4.2: the answers that a requester has to take, and how the
   library may fail. *)
From Verif Require Import Base Iana Crypto Ext Msg Sig S_Ocsp.

(* next_update is OPTIONAL (section 4.2.1) *)
Definition rfc_good (C : crypto) (issuer req_der res_der : bytes) : Prop :=
  exists rq rs scheme,
    cr_load_ocsp_req C req_der = Ok rq /\ cr_load_ocsp_res C res_der = Ok rs /\
    rs_successful rs = true /\ rs_good rs = true /\
    rs_name_hash rs = rq_name_hash rq /\ rs_key_hash rs = rq_key_hash rq /\ rs_serial rs = rq_serial rq /\
    rs_this_update rs <= cr_now C /\ (forall until, rs_next_update rs = Some until -> cr_now C <= until) /\
    In (rs_sig_oid rs, scheme) oid_schemes /\
    cr_sig_verify C scheme (cr_cert_pubkey C issuer) (rs_signature rs) (rs_tbs rs) = Ok tt.

(* the answer is signed the way the certificate of the issuer itself is signed,
   which RFC 6960 does not ask for *)
Definition same_algorithm (C : crypto) (issuer res_der : bytes) : Prop :=
  forall rs, cr_load_ocsp_res C res_der = Ok rs ->
    rs_sig_oid rs = cr_cert_sig_oid C issuer /\ rs_hash_alg rs = cr_cert_hash_alg C issuer.
Definition dated (C : crypto) (res_der : bytes) : Prop :=
  forall rs, cr_load_ocsp_res C res_der = Ok rs -> rs_next_update rs <> None.

(* the exceptions that the library documents *)
Definition documented (C : crypto) : Prop :=
  (forall b e, cr_load_ocsp_req C b = Err e -> e = XValue) /\ (forall b e, cr_load_ocsp_res C b = Err e -> e = XValue) /\
  (forall s k sig m e, cr_sig_verify C s k sig m = Err e -> e = XInvalidSig).
