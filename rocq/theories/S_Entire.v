(* The application data of a connection, from its creation on. *)
From Verif Require Import Base Iana Crypto Config Cipher Conn S_Hist S_Send S_Conn S_Integrity.

(* like [written], without what was written before the handshake was over *)
Fixpoint written_since (C : crypto) (ops : list op) (c : conn) : bytes :=
  match ops with
  | [] => []
  | o :: ops' =>
    (match o with OSend d => if can_send_app (c_state c) && negb (in_handshake (c_state c)) then d else [] | _ => [] end)
    ++ written_since C ops' (after C o c)
  end.
(* [b] decrypts with the key and iv that [a] encrypts with *)
Definition key_shared (a b : conn) : Prop :=
  exists x y k iv, c_cipher a = Some x /\ c_cipher b = Some y /\ cs_suite x = cs_suite y /\
    d_key (cs_w x) = Some k /\ d_key (cs_r y) = Some k /\ d_iv (cs_w x) = Some iv /\ d_iv (cs_r y) = Some iv.
