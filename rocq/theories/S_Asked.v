(* C90: a client that was asked for a certificate *)
From Verif Require Import Base Iana Crypto Config Conn.

(* the states after a CertificateRequest, and those after the end *)
Definition asked (s : state) : bool :=
  match s with
  | ClientWaitCertificate true | ClientWaitCertificateVerify true _ | ClientWaitFinished true _ => true
  | Closed _ _ | Failed => true
  | _ => false
  end.
