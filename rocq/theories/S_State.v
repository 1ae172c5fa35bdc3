(* The state diagrams of RFC 8446 appendix A, with the closing states of the
   library. *)
From Verif Require Import Base Iana Crypto Config Conn.
Require Import Coq.Relations.Relation_Operators.

Inductive phase :=
| CStart | CWaitSH | CWaitEE | CWaitCertCR | CWaitCert | CWaitCV | CWaitFinished
| SStart | SWaitCH | SWaitFinished
| PConnected | PClosed | PFailed.
Definition phase_of (s : state) : phase :=
  match s with
  | ClientStart _ => CStart
  | ClientWaitServerHello _ _ _ => CWaitSH
  | ClientWaitEncryptedExtensions => CWaitEE
  | ClientWaitCertCr => CWaitCertCR
  | ClientWaitCertificate _ => CWaitCert
  | ClientWaitCertificateVerify _ _ => CWaitCV
  | ClientWaitFinished _ _ => CWaitFinished
  | ServerStart => SStart
  | ServerWaitClientHello _ => SWaitCH
  | ServerWaitFinished _ => SWaitFinished
  | Connected => PConnected
  | Closed _ _ => PClosed
  | Failed => PFailed
  end.

Inductive edge : phase -> phase -> Prop :=
(* A.1 *)
| e_ch : edge CStart CWaitSH            (* send ClientHello *)
| e_hrr : edge CWaitSH CStart           (* receive HelloRetryRequest *)
| e_sh : edge CWaitSH CWaitEE           (* receive ServerHello *)
| e_ee : edge CWaitEE CWaitCertCR       (* receive EncryptedExtensions *)
| e_cr : edge CWaitCertCR CWaitCert     (* receive CertificateRequest, or Certificate *)
| e_cert : edge CWaitCert CWaitCV       (* receive Certificate *)
| e_cv : edge CWaitCV CWaitFinished     (* receive CertificateVerify *)
| e_fin : edge CWaitFinished PConnected (* receive Finished *)
(* A.2 *)
| e_listen : edge SStart SWaitCH
| e_shrr : edge SWaitCH SWaitCH         (* send HelloRetryRequest *)
| e_flight : edge SWaitCH SWaitFinished (* receive ClientHello, send the whole flight *)
| e_sfin : edge SWaitFinished PConnected
(* the library *)
| e_close p : edge p PClosed
| e_fail p : edge p PFailed.
Definition path : phase -> phase -> Prop := clos_refl_trans phase edge.
Definition handshaking (p : phase) : bool := match p with PConnected | PClosed | PFailed => false | _ => true end.
