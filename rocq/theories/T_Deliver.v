(* C01 *)
From Verif Require Import Base Iana Crypto Config Cipher Conn S_Hist S_Conn S_Send S_Alert S_Deliver P_Deliver Toy P_Toy T_Alert T_Server.

(* at any moment, whatever each endpoint sent, received and read in the
   meantime, in both directions, what was read is the beginning of what was
   sent, and both endpoints are as connected as they were *)
Theorem c01_prefix : forall C w w', aead_correct C -> linked w -> traffic C w w' ->
  prefix (w_got_b w' ++ c_app (w_b w')) (w_sent_a w') /\
  prefix (w_got_a w' ++ c_app (w_a w')) (w_sent_b w') /\
  c_state (w_a w') = c_state (w_a w) /\ c_state (w_b w') = c_state (w_b w).
Proof. intros C w w' A. exact (delivered_prefix C A w w'). Qed.
Print Assumptions c01_prefix.

(* once the network has delivered everything, all of it was read or can be *)
Theorem c01_delivered : forall C w w', aead_correct C -> linked w -> traffic C w w' ->
  w_ab w' = [] -> c_out (w_a w') = [] ->
  w_got_b w' ++ returned C ORead (w_b w') = w_sent_a w' /\ keyed (w_a w') (w_b w').
Proof. intros C w w' A. exact (delivered_all C A w w'). Qed.
Print Assumptions c01_delivered.

(* a send_data call does return, until the limit of the key is reached *)
Theorem c01_send : forall C g c d, aead_sized C -> reachable C g c -> room c -> enc_on c = true ->
  can_send_app (c_state c) = true -> short c d -> fst (step C (OSend d) c) = Ok [].
Proof. exact send_works. Qed.
Print Assumptions c01_send.

(* two toy endpoints after their handshake *)
Definition c01_world : world := mkWorld c43_c c17_s [] [] [] [] [] [].
Example c01_case : linked c01_world /\ room c43_c /\ can_send_app (c_state c43_c) = true /\ short c43_c [x68; x69].
Proof.
  split; [|split; [apply c43_case|split; vm_compute; reflexivity]].
  unfold linked. cbn [c01_world w_a w_b w_ab w_ba w_sent_a w_sent_b w_got_a w_got_b].
  split; [apply quiet_linkb_ok; vm_compute; reflexivity|].
  split; [apply quiet_linkb_ok; vm_compute; reflexivity | repeat split].
Qed.
(* "hi" sent by one of them, delivered in two pieces, and read *)
Example c01_case2 : exists w', traffic toy c01_world w' /\ w_got_b w' = [x68; x69] /\ w_ab w' = [].
Proof.
  destruct c01_case as (Li & Ro & Ca & Sh).
  apply (round toy c43_c c17_s [x68; x69] toy_aead_correct Li Sh); [|vm_compute; reflexivity].
  apply (c01_send toy toy_client c43_c _ toy_aead_sized); [| exact Ro | vm_compute; reflexivity | exact Ca | exact Sh].
  exists toy_c0; eexists; split; [exact toy_c0_created | reflexivity].
Qed.
(* the restriction on the size is needed: one byte more and the peer fails, see
   c04_case2 *)
