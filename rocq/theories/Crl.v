(* wait_certificate.py:93-100: the revocation list of a client *)
From Verif Require Import Base Iana Crypto Config.

(* What may be passed where a serial number is expected. *)
Inductive arg := ASerial (n : N) | ACert (der : bytes).
(* cryptography's CertificateRevocationList, by the serial numbers in it: the
   lookup takes an integer and raises TypeError for anything else. *)
Definition get_revoked (crl : list N) (a : arg) : res (option N) :=
  match a with
  | ASerial n => Ok (find (N.eqb n) crl)
  | ACert _ => Err XType
  end.
(* wait_certificate.py:97-100 *)
Fixpoint none_revoked (crl : list N) (certs : list bytes) : res unit :=
  match certs with
  | [] => Ok tt
  | d :: l =>
    let* found := get_revoked crl (ACert d) in
    match found with
    | Some _ => Err (XAlert BAD_CERTIFICATE)
    | None => none_revoked crl l
    end
  end.
(* wait_certificate.py:93-100.  A list of length 0 is false. *)
Definition verify_revocation (crl : option (list N)) (certs : list bytes) : res unit :=
  match crl with
  | Some (n :: l) => none_revoked (n :: l) certs
  | _ => Ok tt
  end.
