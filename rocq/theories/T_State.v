(* C38 *)
From Verif Require Import Base Iana Crypto Config Msg Cipher Conn S_Hist S_Conn S_State P_State Toy.

(* each call moves the state along the edges of the diagrams *)
Theorem c38_path : forall C g c o, reachable C g c ->
  path (phase_of (c_state c)) (phase_of (c_state (after C o c))).
Proof. exact state_path. Qed.
Print Assumptions c38_path.
(* the handshake is never entered again *)
Theorem c38_over : forall C g c ops, reachable C g c -> in_handshake (c_state c) = false ->
  in_handshake (c_state (run C ops c)) = false.
Proof. exact state_over. Qed.
Print Assumptions c38_over.
Example c38_case :
  map (fun n => phase_of (c_state (run toy (firstn n [OInit; ORecv (c_out toy_s2); OCloseS; OCloseR; OInit]) toy_c0)))
    [0; 1; 2; 3; 4; 5]%nat = [CStart; CWaitSH; PConnected; PClosed; PClosed; PClosed].
Proof. vm_compute. reflexivity. Qed.
