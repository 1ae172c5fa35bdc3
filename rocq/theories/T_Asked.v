(* C90 *)
From Verif Require Import Base P_Base Iana Crypto Config Serial Ext Msg Cipher Conn S_Hist S_Conn S_Utils S_Keys S_Auth Toy P_Toy S_Asked P_Asked.

(* C90.  Full statement: a client that is asked for a certificate answers the
   Finished of the server with a Certificate, that may be empty, and its own
   Finished, and is connected.
   Missing: it never connects (c90_never, c90_refuted).  It sends nothing, so
   that no server takes it for a client that authenticated itself or that
   declined. *)
Theorem c90_silent_partial : forall C c h v, c_state c = ClientWaitFinished true h ->
  (exists e, fst (process C (KHandshake (HFinished v)) c) = Err e) /\ snd (process C (KHandshake (HFinished v)) c) = c.
Proof. exact asked_finished. Qed.
Print Assumptions c90_silent_partial.
Theorem c90_enters : forall C c ctx exts, c_state c = ClientWaitCertCr ->
  process C (KHandshake (HCertReq ctx exts)) c = (Ok tt, cset_state (ClientWaitCertificate true) c).
Proof. exact asked_enters. Qed.
Print Assumptions c90_enters.
Theorem c90_never : forall C g c ops, reachable C g c -> asked (c_state c) = true -> asked (c_state (run C ops c)) = true.
Proof. exact asked_stays. Qed.
Print Assumptions c90_never.
(* seen from the messages *)
Theorem c90_unasked : forall C g c, aead_sized C -> hmac_sized C -> hash_sized C -> g_side g = Client -> reachable C g c -> c_state c = Connected ->
  exists before sd fd after, c_hs c = before ++ [SFin sd; CFin fd] ++ after /\ forall m, In m before -> token_of m <> TCR.
Proof. exact connected_unasked. Qed.
Print Assumptions c90_unasked.

(* --- a server that wants its clients to authenticate --------------------------- *)
Definition ak_server : config :=
  mkConfig Server toy_suites [x25519; secp256r1] [ed25519; ed448] (Some 1) None 5 []
    (Some toy_cert) None (Some [toy_cert]) 16384 true [ascii_bytes "http/1.1"%string] [].
Definition ak_s0 : conn := get_ok (new_conn false ak_server None false (toy_rng 2 100) (toy_rng 2)).
Definition ak_c1 : conn := run toy [OInit] toy_c0.
(* its whole flight; that it then fails itself is C18 *)
Definition ak_flight : bytes := c_out (run toy [OInit; ORecv (c_out ak_c1)] ak_s0).
Definition ak_step (n : N) : conn := run toy [OInit; ORecv (btake n ak_flight)] toy_c0.
Lemma ak_reached n : reachable toy toy_client (ak_step n).
Proof. exists toy_c0. eexists. split; [exact toy_c0_created | reflexivity]. Qed.
(* up to the CertificateRequest, and up to the CertificateVerify *)
Example c90_case : asked (c_state ak_c1) = false /\ c_state (ak_step 8303) = ClientWaitCertificate true /\
  (exists h, c_state (ak_step 16505) = ClientWaitFinished true h) /\
  exists d, In (CR d) (c_hs (ak_step 8303)).
Proof.
  split; [vm_compute; reflexivity|]. split; [vm_compute; reflexivity|]. split; [eexists; vm_compute; reflexivity|].
  assert (E : existsb (fun m => match token_of m with TCR => true | _ => false end) (c_hs (ak_step 8303)) = true) by (vm_compute; reflexivity).
  apply existsb_exists in E as ([[sd ty] d] & I & T). exists d. unfold token_of in T. cbn [m_side m_type fst snd] in T.
  destruct sd; [destruct (ty =? 1); [discriminate T|]; destruct (ty =? 20); discriminate T|].
  destruct (ty =? 2); [destruct (is_retry _); discriminate T|]. destruct (ty =? 8); [discriminate T|].
  destruct (ty =? 13) eqn:E13; [apply N.eqb_eq in E13; subst ty; exact I|].
  destruct (ty =? 11); [discriminate T|]. destruct (ty =? 15); [discriminate T|]. destruct (ty =? 20); discriminate T.
Qed.
(* everything that an honest server sends *)
Theorem c90_refuted : exists C g c b, reachable C g c /\ g_side g = Client /\
  b = c_out (run C [OInit; ORecv (c_out c)] ak_s0) /\
  fst (receive_data C b c) = Err XNotImpl /\ c_state (snd (receive_data C b c)) = Failed.
Proof.
  exists toy, toy_client, ak_c1, ak_flight.
  split; [exists toy_c0, [OInit]; split; [exact toy_c0_created | reflexivity]|]. split; [reflexivity|]. split; [reflexivity|].
  split; vm_compute; reflexivity.
Qed.
Print Assumptions c90_refuted.
