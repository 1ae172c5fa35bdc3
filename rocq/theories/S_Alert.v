(* RFC 8446 section 6.2: errors. *)
From Verif Require Import Base Iana Crypto Config Cipher Conn S_Send S_Nonce.

(* processing what is in the input buffer, record after record, raises [e]; [c']
   is the connection at that moment *)
Inductive raises (C : crypto) : conn -> exn -> conn -> Prop :=
| raises_now c e c' : receive_one C c = (Err e, c') -> raises C c e c'
| raises_later c c1 e c' : receive_one C c = (Ok true, c1) -> raises C c1 e c' -> raises C c e c'.

(* the alert that describes an exception *)
Definition alert_for (e : exn) : N :=
  match e with XAlert code => if code <? 256 then code else INTERNAL_ERROR | _ => INTERNAL_ERROR end.

(* one record that holds the fatal alert [code] and nothing else *)
Definition alert_record (C : crypto) (code : N) (r : bytes) : Prop :=
  r = record CT_ALERT [x02; Nb code] \/
  exists suite s, r = sealed_record C suite s /\ wraps CT_ALERT [x02; Nb code] (se_data s).

(* when encrypting: one of the suites that have a limit, and it is not reached *)
Definition room (c : conn) : Prop :=
  forall x, c_cipher c = Some x -> enc_on c = true ->
  exists lim, In (cs_suite x, lim) limit_table /\
    forall q, d_seq (cs_w x) = Some q -> q_next q < lim.

(* RFC 8446 5.3: the nonce of the next record in one direction *)
Definition rfc_nonce (d : dir) : option bytes :=
  match d_iv d, d_seq d with
  | Some iv, Some q => Some (be_bytes 12 (N.lxor iv (q_next q)))
  | _, _ => None
  end.
(* what is left of the limit, when receiving *)
Definition room_r (c : conn) : Prop :=
  forall x, c_cipher c = Some x -> dec_on c = true ->
  exists lim, In (cs_suite x, lim) limit_table /\
    forall q, d_seq (cs_r x) = Some q -> q_next q < lim.
(* nothing read and not processed yet *)
Definition idle (c : conn) : Prop := c_in c = [] /\ c_inhs c = [].
