(* C61 *)
From Verif Require Import Base Iana Crypto Config Conn S_Hist S_Heed S_Memory Toy P_Toy P_Memory.

(* C61.  FULL STATEMENT, refuted below: when receive_data returns, the connection
   keeps less than a record of input, and less than a handshake message.  The
   first part is missing while the handshake records read so far hold less than
   the four bytes of a header. *)
Theorem c61_kept_partial : forall C g c ops d c1, created g c -> calm C ops c ->
  receive_data C d (run C ops c) = (Ok tt, c1) ->
  blen (c_inhs c1) < MESSAGE_MAX /\ (blen (c_in c1) < RECORD_MAX \/ blen (c_inhs c1) < 4).
Proof. exact kept. Qed.
Print Assumptions c61_kept_partial.

(* what waits for the caller is not more than what the peer sent *)
Theorem c61_app : forall C d c, opens_short C ->
  blen (c_app (snd (receive_data C d c))) <= blen (c_app c) + blen (c_in c) + blen d.
Proof. exact app_kept. Qed.
Print Assumptions c61_app.

(* Empty handshake records: receive_data stops after each of them, so a peer that
   sends two per call makes any server that has just been created keep any
   amount of input, without a single exception. *)
Theorem c61_unbounded_refuted : forall C g c, created g c -> g_side g = Server ->
  forall n, exists ops, smooth C ops c /\ n <= blen (c_in (run C ops c)).
Proof. exact unbounded. Qed.
Print Assumptions c61_unbounded_refuted.

Example c61_case : created toy_server toy_s0 /\ g_side toy_server = Server /\ opens_short toy /\
  fst (receive_data toy mem_part toy_s0) = Ok tt /\
  blen (c_inhs (snd (receive_data toy mem_part toy_s0))) = 6 /\ blen (c_in (snd (receive_data toy mem_part toy_s0))) = 2.
Proof.
  split; [exact toy_s0_created|]. split; [vm_compute; reflexivity|]. split; [exact toy_short|].
  split; [vm_compute; reflexivity|]. split; vm_compute; reflexivity.
Qed.
(* five calls, ten bytes each: half of them are kept *)
Example c61_unbounded_case : blen (c_in (run toy (repeat (ORecv (hollows 2)) 5) toy_s0)) = 25.
Proof. vm_compute. reflexivity. Qed.
