(* C12 *)
From Verif Require Import Base Iana Crypto Config Msg Cipher Conn S_Hist S_Conn S_Send S_Close P_Close Toy P_Toy.

(* Full statement: once close_sending_end returned, no later API call emits
   anything.  It holds up to the first close_notify alert received from the
   peer, unless the connection had failed before. *)
Theorem c12_silent_partial : forall C c c' ops, close_sending_end C c = (Ok tt, c') -> c_state c <> Failed ->
  no_close_notify C ops c' -> emits C ops c' [].
Proof. exact closed_silent. Qed.
Print Assumptions c12_silent_partial.

(* What is missing: receiving the peer's close_notify reopens the sending end. *)
Definition c12_data : bytes := [x6c; x61; x74; x65].
Theorem c12_silent_refuted : exists C g c ops c', reachable C g c /\ is_connected c = true /\
  close_sending_end C c = (Ok tt, c') /\ (forall e c1, send_data C c12_data c' <> (Ok e, c1)) /\
  ~ emits C (ops ++ [OSend c12_data]) c' [].
Proof.
  set (c := run toy [OInit; ORecv (c_out toy_s2)] toy_c0).
  exists toy, toy_client, c, [ORecv (c_out (run toy [OFlush; OCloseS] toy_s3))], (snd (close_sending_end toy c)).
  split; [exists toy_c0, [OInit; ORecv (c_out toy_s2)]; split; [apply toy_c0_created | reflexivity]|].
  split; [vm_compute; reflexivity|].
  split; [apply close_fst; vm_compute; reflexivity|].
  split; [apply send_refused; vm_compute; discriminate|].
  apply emits_grow; [discriminate | discriminate|]. vm_compute. discriminate.
Qed.
Print Assumptions c12_silent_refuted.

(* a connected client closes, receives data and tries to send *)
Example c12_case :
  let c := run toy [OInit; ORecv (c_out toy_s2)] toy_c0 in
  let c' := snd (close_sending_end toy c) in
  let d := c_out (run toy [OFlush; OSend [x61]] toy_s3) in
  fst (close_sending_end toy c) = Ok tt /\ c_state c <> Failed /\
  no_close_notify toy [ORecv d; OSend [x62]; OCloseR] c' /\ c_app (after toy (ORecv d) c') = [x61].
Proof.
  cbv zeta. split; [vm_compute; reflexivity|]. split; [vm_compute; discriminate|]. split; [|vm_compute; reflexivity].
  split; [|split; [|split; [|exact I]]]; try exact I.
  apply (handles_one_fst _ _ CT_APPDATA [x61]); [vm_compute; reflexivity | discriminate | vm_compute; reflexivity].
Qed.
