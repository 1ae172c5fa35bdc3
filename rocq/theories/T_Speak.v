(* C09 *)
From Verif Require Import Base Iana Crypto Config Msg Cipher Conn S_Hist S_Conn S_Send S_Speak P_Speak Toy P_Toy.

(* Full statement: whenever send_data succeeds, the bytes it appends are records
   produced by the AEAD under the current write key.  It holds from the moment
   the handshake allows the user to write on, whatever is called afterwards. *)
Theorem c09_secret_partial : forall C g c ops d c', reachable C g c -> speaks (c_state c) = true ->
  send_data C d (run C ops c) = (Ok tt, c') -> secret_output C (run C ops c) c' d.
Proof. exact reachable_secret. Qed.
Print Assumptions c09_secret_partial.
(* and as soon as there are keys *)
Theorem c09_keys_partial : forall C g c d c', reachable C g c -> enc_on c = true ->
  send_data C d c = (Ok tt, c') -> secret_output C c c' d.
Proof. exact reachable_keyed_secret. Qed.
Print Assumptions c09_keys_partial.
(* after an error nothing is emitted *)
Theorem c09_error : forall C d c e c', send_data C d c = (Err e, c') -> c_out c' = c_out c.
Proof. exact send_error_silent. Qed.
Print Assumptions c09_error.

(* What is missing is a close_notify alert received in the clear before there
   are keys: the connection becomes closed, but still allowed to send. *)
Definition c09_close_notify : bytes := [x15; x03; x03; x00; x02; x01; x00].
Theorem c09_secret_refuted : exists C g c d c', reachable C g c /\
  send_data C d c = (Ok tt, c') /\ d <> [] /\ c_out c' = c_out c ++ record CT_APPDATA d.
Proof.
  set (ops := [OInit; OFlush; ORecv c09_close_notify]).
  exists toy, toy_client, (run toy ops toy_c0), [x73; x65; x63; x72; x65; x74],
    (run toy (ops ++ [OSend [x73; x65; x63; x72; x65; x74]]) toy_c0).
  split; [exists toy_c0, ops; split; [apply toy_c0_created | reflexivity]|].
  split; [vm_compute; reflexivity|]. split; [discriminate|]. vm_compute. reflexivity.
Qed.
Print Assumptions c09_secret_refuted.
(* a connected client writes twice, once after the peer closed *)
Example c09_case :
  let c := run toy [OInit; ORecv (c_out toy_s2)] toy_c0 in
  speaks (c_state c) = true /\
  fst (send_data toy [x61] (run toy [OSend [x62]; OFlush] c)) = Ok tt.
Proof. split; vm_compute; reflexivity. Qed.
