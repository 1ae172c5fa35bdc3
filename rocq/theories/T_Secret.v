(* C79 *)
From Verif Require Import Base Iana Crypto Config Cipher Kex Conn S_Hist S_Conn S_Auth S_Veil S_Hello S_Secret P_Secret P_Secret2 Toy P_Toy P_HelloToy P_SecretToy.

(* Whatever the caller and the peer do, the bytes to send, the data read, the
   exceptions, the negotiated parameters and the key log depend on the
   ephemeral keys only through their public values and the secrets shared with
   them, and on the private key of the server only through its signatures of
   the content that RFC 8446 4.4.3 lays down. *)
Theorem c79_hidden : forall C g c k r ops, created g c ->
  (forall i, twin_keys C (c_rng c i) (r i)) -> twin_signers C (g_private g) k ->
  outcomes C ops (disguise k r c) = outcomes C ops c /\ told (run C ops (disguise k r c)) = told (run C ops c) /\
  logged (run C ops (disguise k r c)) = logged (run C ops c).
Proof. exact secret_hidden. Qed.
Print Assumptions c79_hidden.

(* the other connection is one that the library makes *)
Theorem c79_real : forall C g c k r, created g c -> twin_signers C (g_private g) k -> created (with_private k g) (disguise k r c).
Proof. exact disguise_created. Qed.
Print Assumptions c79_real.

(* a server that answers a hello, with other keys *)
Example c79_case : created toy_server toy_s0 /\ (forall i, twin_keys shy (c_rng toy_s0 i) (shy_rng (c_rng toy_s0) i)) /\
  twin_signers shy (g_private toy_server) (shy_key (g_private toy_server)) /\
  shy_key (g_private toy_server) <> g_private toy_server /\ shy_rng (c_rng toy_s0) 0 <> c_rng toy_s0 0 /\
  match outcomes shy [OInit; ORecv (c_out toy_c1); OFlush] toy_s0 with [Ok []; Ok []; Ok d] => 1000 <? blen d | _ => false end = true.
Proof.
  split; [exact toy_s0_created|]. split; [intro; apply shy_twins|]. split; [apply shy_signers|]. split; [discriminate|].
  split; [vm_compute; discriminate|]. vm_compute. reflexivity.
Qed.

(* Every ClientHello of a connection carries one key share, whose private key is
   drawn for it and for no other. *)
Theorem c79_fresh : forall C g c, reachable C g c -> g_side g = Client ->
  exists is, NoDup is /\ Forall2 (fun i d => carries C (c_rng c i) d) is (hellos_of (c_hs c)).
Proof. exact shares_fresh. Qed.
Print Assumptions c79_fresh.
Example c79_case_fresh : reachable toy toy_client (he_after he_retry) /\ length (hellos_of (c_hs (he_after he_retry))) = 2%nat.
Proof. split; [apply he_after_reachable | vm_compute; reflexivity]. Qed.
