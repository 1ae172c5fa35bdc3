(* crypto/ocsp.py validate_ocsp *)
From Verif Require Import Base Iana Crypto Sig.

(* ocsp.py:40-91.  Both calls to datetime.utcnow() return cr_now. *)
Definition validate_ocsp (C : crypto) (issuer req_der res_der : bytes) : res N :=
  let* req := cr_load_ocsp_req C req_der in
  let* rs := cr_load_ocsp_res C res_der in
  if negb (rs_successful rs) then Err XValue
  else if negb (rs_good rs) then Err XValue
  else if negb (beqb (rs_name_hash rs) (rq_name_hash req)) then Err XValue
  else if negb (beqb (rs_key_hash rs) (rq_key_hash req)) then Err XValue
  else if negb (rs_serial rs =? rq_serial req) then Err XValue
  else if cr_now C <? rs_this_update rs then Err XValue
  else match rs_next_update rs with
       | None => Err XType                             (* None < datetime *)
       | Some nu =>
         if nu <? cr_now C then Err XValue
         else if negb (rs_sig_oid rs =? cr_cert_sig_oid C issuer) then Err XValue
         else if negb (rs_hash_alg rs =? cr_cert_hash_alg C issuer) then Err XValue
         else match from_signature_oid (rs_sig_oid rs) with
              | Err _ => Err XValue
              | Ok scheme =>
                match suite_verify C scheme (cr_cert_pubkey C issuer)
                        (rs_signature rs) (rs_tbs rs) with
                | Ok _ => Ok nu
                | Err XInvalidSig =>                   (* exc.args[0] *)
                  if cr_sig_args C then Err XValue else Err XIndex
                | Err e => Err e
                end
              end
       end.
