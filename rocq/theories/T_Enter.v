(* C69 *)
From Verif Require Import Base P_Base Iana Crypto Config Serial Msg Cipher Conn Wrapper Examples S_Hist S_Conn S_Close S_Nonce S_Send S_Enter P_Enter Toy P_Toy P_HelloToy.

(* C69.  Full statement: the body of a with statement runs only over a connected
   connection.  Unless the peer, or anybody in its place, sends a close_notify,
   or closes the stream. *)
Theorem c69_enter_partial : forall C g c k c' k', created g c -> do_handshake C (c, k) = (Ok tt, (c', k')) ->
  exists ds, sk_recv k = map Ok ds ++ sk_recv k' /\ c' = run C (handshake_calls (g_side g) ds) c /\ is_post_handshake c' = true /\
    (no_close_notify C (handshake_calls (g_side g) ds) c -> (~ In [] ds /\ c_state c' = Connected) \/ (In [] ds /\ c_state c' = Failed)).
Proof. exact enter_ends. Qed.
Print Assumptions c69_enter_partial.
Definition c69_k := mkSock [Ok (c_out toy_s2)] [] [].
Example c69_case : created toy_client toy_c0 /\ fst (do_handshake toy (toy_c0, c69_k)) = Ok tt /\
  c_state (fst (snd (do_handshake toy (toy_c0, c69_k)))) = Connected /\
  fst (simple_client toy [x68; x69] (toy_c0, mkSock [Ok (c_out toy_s2); Ok []] [] [])) = Ok [].
Proof. split; [exact toy_c0_created|]. split; [vm_compute; reflexivity|]. split; vm_compute; reflexivity. Qed.
Theorem c69_eof_refuted : exists C g c k, created g c /\ require_peer_auth g = true /\ sk_recv k = [Ok []] /\
  fst (do_handshake C (c, k)) = Ok tt /\ c_state (fst (snd (do_handshake C (c, k)))) = Failed.
Proof.
  exists toy, toy_client, toy_c0, (mkSock [Ok []] [] []). split; [exact toy_c0_created|]. split; [reflexivity|]. split; [reflexivity|].
  split; vm_compute; reflexivity.
Qed.
Print Assumptions c69_eof_refuted.
(* Two records that anybody can write, and the client of the examples, which
   verifies certificates, sends its request in clear and takes the second one
   for the response: no message of the handshake but its own has been seen. *)
Definition c69_notify : bytes := record CT_ALERT [x01; x00].
Theorem c69_stranger_refuted : exists C g c request response k c' k' hello, created g c /\ g_side g = Client /\ require_peer_auth g = true /\
  request <> [] /\ response <> [] /\ sk_recv k = [Ok c69_notify; Ok (record CT_APPDATA response)] /\ sk_sent k = [] /\
  simple_client C request (c, k) = (Ok response, (c', k')) /\
  map fst (c_hs c') = [(Client, CLIENT_HELLO)] /\
  sk_sent k' = record CT_HANDSHAKE hello ++ record CT_APPDATA request ++ c69_notify.
Proof.
  set (k := mkSock [Ok c69_notify; Ok (record CT_APPDATA [x6f; x6b])] [] []).
  exists toy, toy_client, toy_c0, [x47; x45; x54], [x6f; x6b], k.
  exists (fst (snd (simple_client toy [x47; x45; x54] (toy_c0, k)))), (snd (snd (simple_client toy [x47; x45; x54] (toy_c0, k)))), he_ch.
  split; [exact toy_c0_created|]. split; [reflexivity|]. split; [reflexivity|]. split; [discriminate|]. split; [discriminate|].
  split; [reflexivity|]. split; [reflexivity|].
  split. { assert (E : fst (simple_client toy [x47; x45; x54] (toy_c0, k)) = Ok [x6f; x6b]) by (vm_compute; reflexivity).
    apply fst_ok in E. rewrite E at 1. rewrite <- surjective_pairing. reflexivity. }
  split; [vm_compute; reflexivity|]. apply beqb_eq. vm_compute. reflexivity.
Qed.
Print Assumptions c69_stranger_refuted.

(* Leaving: whatever the body did, its result or its exception is that of the
   statement, the sending end is closed and everything is handed to the socket,
   unless the closing raises. *)
Theorem c69_exit : forall A C (body : W A) s s1 rb s2 r c' k', do_handshake C s = (Ok tt, s1) -> body s1 = (rb, s2) -> wwith C body s = (r, (c', k')) ->
  (r = rb /\ can_send (c_state c') = false /\ c_out c' = []) \/ exists e, r = Err e /\ fst (wclose C s2) = Err e.
Proof.
  intros A C body s s1 rb s2 r c' k' E1 E2 H. unfold wwith, wbind in H. rewrite E1 in H. unfold wfinally in H. rewrite E2 in H.
  destruct s2 as [c2 k2]. destruct (wclose C (c2, k2)) as [[[]|e] [c3 k3]] eqn:Ec; injection H; intros <- <- <-.
  - left. split; [reflexivity | exact (close_shut C c2 k2 c3 k3 Ec)].
  - right. exists e. split; reflexivity.
Qed.
Print Assumptions c69_exit.
(* it does not raise after a failure nor when the sending end is closed already *)
Theorem c69_exit_quiet : forall A C (body : W A) s s1 rb c2 k2, do_handshake C s = (Ok tt, s1) -> body s1 = (rb, (c2, k2)) ->
  (c_state c2 = Failed \/ exists r, c_state c2 = Closed r false) -> fst (wwith C body s) = rb.
Proof.
  intros A C body s s1 rb c2 k2 E1 E2 H. unfold wwith, wbind. rewrite E1. unfold wfinally. rewrite E2.
  pose proof (close_quiet C c2 k2 H) as Q. destruct (wclose C (c2, k2)) as [[[]|e] s3]; [reflexivity | discriminate Q].
Qed.
Print Assumptions c69_exit_quiet.
