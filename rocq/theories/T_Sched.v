From Verif Require Import Base Iana Crypto Config Cipher Conn Toy P_Toy S_Utils S_Hist S_Keys S_Server S_Sched P_Sched T_Alert T_Server.

(* C26.  The external code does not itself raise AssertionError; a server does
   not draw the random that marks a HelloRetryRequest. *)
Theorem c26_forward C g c ops :
  aead_sized C -> hmac_sized C -> hash_sized C -> unasserting C -> alive C g c -> forward c (run C ops c).
Proof. exact (sched_run C g c ops). Qed.
Print Assumptions c26_forward.

Theorem c26_once C g c :
  aead_sized C -> hmac_sized C -> hash_sized C -> unasserting C -> alive C g c ->
  installed_w c <= 2 /\ installed_r c <= 2 /\ stage c <= 2 /\
  (before_end (c_state c) = true -> installed_w c <= 1 /\ installed_r c <= 1) /\
  (stage c < 2 -> installed_w c = 0 /\ installed_r c = 0).
Proof. exact (sched_once C g c). Qed.
Print Assumptions c26_once.

Theorem c26_no_assertion C g c o :
  aead_sized C -> hmac_sized C -> hash_sized C -> unasserting C -> alive C g c ->
  fst (step C o c) <> Err XAssert.
Proof. exact (fun As Hs Hh Un Al => sched_asserts C g c As Hs Hh Un Al o). Qed.
Print Assumptions c26_no_assertion.

Lemma toy_unasserting : unasserting toy.
Proof.
  unfold unasserting. repeat split; intros; try discriminate.
  all: cbn; repeat match goal with |- context [match ?x with _ => _ end] => destruct x end; try discriminate.
Qed.
Lemma toy_alive_c ops : alive toy toy_client (run toy ops toy_c0).
Proof. exists toy_c0, ops. split; [exact toy_c0_created|]. split; [discriminate | reflexivity]. Qed.
Lemma toy_alive_s ops : alive toy toy_server (run toy ops toy_s0).
Proof. exists toy_s0, ops. split; [exact toy_s0_created|]. split; [intros _; exact toy_s0_random | reflexivity]. Qed.

(* both ends of a finished handshake, the server before the end, and the
   assertions that a wrong order would meet *)
Definition c26_counts (c : conn) : list N := [stage c; installed_w c; installed_r c].
Example c26_case : aead_sized toy /\ hmac_sized toy /\ hash_sized toy /\ unasserting toy /\
  alive toy toy_client c43_c /\ alive toy toy_server c17_s /\
  c26_counts toy_c0 = [0; 0; 0] /\ c26_counts toy_s2 = [2; 1; 1] /\ before_end (c_state toy_s2) = true /\
  c26_counts c43_c = [2; 2; 2] /\ c26_counts c17_s = [2; 2; 2] /\
  fst (derive_handshake_secrets toy [] [] (cs_new 0 0 0x1301 Client)) = Err XAssert /\
  fst (derive_master_secrets toy [] [] (cs_new 0 0 0x1301 Client)) = Err XAssert.
Proof.
  split; [exact toy_aead_sized|]. split; [exact toy_hmac_sized|]. split; [exact toy_hash_sized|].
  split; [exact toy_unasserting|]. split; [apply toy_alive_c|]. split; [apply toy_alive_s|].
  repeat split; vm_compute; reflexivity.
Qed.
