From Verif Require Import Base Iana Crypto Config Conn Wrapper Toy P_Toy S_Hist S_Conn S_Wrap P_Alert P_Wrap T_Alert.

(* C42.  Full statement: for every socket.  Proved for a socket whose send takes
   all it is given; a socket that takes less loses bytes (refuted below). *)
Theorem c42_write_partial C data : hands_over C (wwrite C data).
Proof. exact (hand_write C data). Qed.
Print Assumptions c42_write_partial.
Theorem c42_close_partial C : hands_over C (wclose C).
Proof. exact (hand_close C). Qed.
Print Assumptions c42_close_partial.
Theorem c42_read_partial C : hands_over C (wread C).
Proof. exact (hand_read C). Qed.
Print Assumptions c42_read_partial.
Theorem c42_handshake_partial C c k r c' k' : g_side (c_config c) = Client \/ c_state c = ServerStart ->
  sk_accept k = [] -> c_out c = [] -> do_handshake C (c, k) = (r, (c', k')) ->
  exists ops e, c' = run C ops c /\ emits C ops c e /\ sk_sent k' ++ c_out c' = sk_sent k ++ e /\
    forall a, r = Ok a -> c_out c' = [].
Proof. exact (hand_handshake C c k r c' k'). Qed.
Print Assumptions c42_handshake_partial.

(* a whole handshake over a socket, then a write, a read and a close *)
Definition c42_k := mkSock [Ok (c_out toy_s2)] [] [].
Definition c42_w := snd (do_handshake toy (toy_c0, c42_k)).
Example c42_case_handshake : c_out toy_c0 = [] /\ fst (do_handshake toy (toy_c0, c42_k)) = Ok tt /\
  beqb (sk_sent (snd c42_w)) (c_out toy_c1 ++ c_out toy_c2) = true /\ c_state (fst c42_w) = Connected.
Proof. split; [reflexivity|]. split; [vm_compute; reflexivity|]. split; vm_compute; reflexivity. Qed.
Example c42_case_write : fst (wwrite toy [x68; x69] c42_w) = Ok tt.
Proof. vm_compute. reflexivity. Qed.
Example c42_case_close : fst (wclose toy c42_w) = Ok tt.
Proof. vm_compute. reflexivity. Qed.

(* what send did not take is dropped: it is neither sent nor kept *)
Theorem c42_write_refuted : exists C g c k data c' k' e, reachable C g c /\ c_state c = Connected /\ c_out c = [] /\
  sk_sent k = [] /\ wwrite C data (c, k) = (Ok tt, (c', k')) /\ emits C [OSend data; OFlush] c e /\ c_out c' = [] /\
  blen (sk_sent k') < blen e.
Proof.
  assert (O : c_out c43_c = []) by (vm_compute; reflexivity).
  destruct (write_short toy c43_c [x68; x69] 3 O) as (c' & k' & e & H); [vm_compute; reflexivity | vm_compute; reflexivity |].
  exists toy, toy_client, c43_c, (mkSock [] [3] []), [x68; x69], c', k', e.
  split; [exists toy_c0; eexists; split; [exact toy_c0_created | reflexivity]|].
  split; [vm_compute; reflexivity|]. split; [exact O|]. split; [reflexivity | exact H].
Qed.
Print Assumptions c42_write_refuted.
