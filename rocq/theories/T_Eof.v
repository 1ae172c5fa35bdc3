(* C57 *)
From Verif Require Import Base Iana Crypto Config Conn S_Hist S_Conn S_Send S_Deliver Wrapper S_Net P_Eof Toy P_Toy P_Base T_Alert T_Server T_Deliver.

(* On a connected socket, read returns the empty string only after recv did: no
   record whatever its content makes it report the end of the stream. *)
Theorem c57_eof_partial : forall C c k c' k', is_connected c = true -> wread C (c, k) = (Ok [], (c', k')) ->
  (exists w, c_state c' = Closed false w) /\ exists l, sk_recv k = l ++ Ok [] :: sk_recv k'.
Proof. exact read_eof. Qed.
Print Assumptions c57_eof_partial.

(* What is missing: that the peer said so too.  A network that drops all that
   was written and closes gives the same as a peer that wrote nothing and
   closed. *)
Definition conn_of {A} (x : res A * (conn * sock)) : conn := fst (snd x).
Theorem c57_truncation_refuted : exists C a b d, linked (mkWorld a b [] [] [] [] [] []) /\ d <> [] /\
  fst (wwrite C d (a, fresh)) = Ok tt /\ fst (wclose C (a, fresh)) = Ok tt /\
  let cut := wread C (b, mkSock [Ok []] [] []) in
  let ended := wread C (b, mkSock [Ok (sk_sent (snd (snd (wclose C (a, fresh))))); Ok []] [] []) in
  fst cut = Ok [] /\ fst ended = Ok [] /\
  c_state (conn_of cut) = c_state (conn_of ended) /\ c_app (conn_of cut) = c_app (conn_of ended) /\ c_out (conn_of cut) = c_out (conn_of ended).
Proof.
  exists toy, c43_c, c17_s, [x68; x69]. split; [apply c01_case|]. split; [discriminate|].
  split; [vm_compute; reflexivity|]. split; [vm_compute; reflexivity|]. cbv zeta.
  split; [vm_compute; reflexivity|]. split; [vm_compute; reflexivity|]. split; [vm_compute; reflexivity|]. split; vm_compute; reflexivity.
Qed.
Print Assumptions c57_truncation_refuted.

(* Nor does a close_notify end the stream.  The peer has closed and all it sent
   was received: read waits for more. *)
Theorem c57_waits_refuted : exists C a b, linked (mkWorld a b [] [] [] [] [] []) /\
  fst (wclose C (a, fresh)) = Ok tt /\
  let x := wread C (b, mkSock [Ok (sk_sent (snd (snd (wclose C (a, fresh)))))] [] []) in
  fst x = Err XFuel /\ is_connected (conn_of x) = true.
Proof.
  exists toy, c43_c, c17_s. split; [apply c01_case|]. split; [vm_compute; reflexivity|]. cbv zeta. split; vm_compute; reflexivity.
Qed.
Print Assumptions c57_waits_refuted.

(* RFC 8446 6.1: data received after a close_notify must be ignored.  Both
   endpoints close; the close_notify of each reaches the other; what the first
   sends then is read by the second. *)
Definition c57_a1 : list op := [OCloseS; OFlush].
Definition c57_b1 (C : crypto) (a : conn) : list op := [ORecv (flushed C c57_a1 a); OCloseS; OFlush].
Definition c57_a2 (C : crypto) (a b : conn) (d : bytes) : list op := [ORecv (flushed C (c57_b1 C a) b); OSend d; OFlush].
Definition c57_b2 (C : crypto) (a b : conn) (d : bytes) : list op := [ORecv (flushed C (c57_a2 C a b d) (run C c57_a1 a)); ORead].
Theorem c57_after_refuted : exists C a b d, linked (mkWorld a b [] [] [] [] [] []) /\ d <> [] /\
  fst (step C (ORecv (flushed C c57_a1 a)) b) = Ok [] /\
  readout C (c57_b2 C a b d) (run C (c57_b1 C a) b) = d.
Proof.
  exists toy, c43_c, c17_s, [x68; x69]. split; [apply c01_case|]. split; [discriminate|].
  split; vm_compute; reflexivity.
Qed.
Print Assumptions c57_after_refuted.

(* an end of file after some data: the first read returns the data, the second
   the empty string *)
Definition c57_stream : bytes := sk_sent (snd (snd (wwrite toy [x68; x69] (c43_c, fresh)))).
Definition c57_first : res bytes * (conn * sock) := wread toy (c17_s, mkSock [Ok c57_stream; Ok []] [] []).
Example c57_case : is_connected (conn_of c57_first) = true /\ fst c57_first = Ok [x68; x69] /\
  fst (wread toy (snd c57_first)) = Ok [].
Proof. split; [vm_compute; reflexivity|]. split; vm_compute; reflexivity. Qed.
