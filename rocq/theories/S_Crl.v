(* C88: what a revocation list is for *)
From Verif Require Import Base Iana Crypto Config Conn S_State Crl.

(* the certificate with the serial number [n] is in the list *)
Definition revoked (crl : option (list N)) (n : N) : Prop := exists l, crl = Some l /\ In n l.
(* the serial numbers of certificates *)
Definition clean (serial : bytes -> N) (crl : option (list N)) (certs : list bytes) : Prop :=
  forall d, In d certs -> ~ revoked crl (serial d).
(* the configuration has this list; one without elements counts as none *)
Definition listed (g : config) (crl : option (list N)) : Prop := g_crl g <> None <-> exists n l, crl = Some (n :: l).
(* the states of a client before it has accepted a certificate, or after the end *)
Definition unconvinced (p : phase) : bool :=
  match p with CStart | CWaitSH | CWaitEE | CWaitCertCR | CWaitCert | PClosed | PFailed => true | _ => false end.
