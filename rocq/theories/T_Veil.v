(* C52 *)
From Verif Require Import Base P_Base Iana Crypto Config Cipher Conn S_Hist S_Conn S_Send S_Veil Toy P_Toy P_Veil P_VeilToy.

(* What leaves the machine is made of the same parts whatever the text written
   once there are keys: the parts in clear are equal, and the sealed ones differ
   only in what the AEAD protects, which has the same length.  The texts may even
   have different lengths, as far as the padding hides it.  Every other call
   returns or raises the same. *)
Theorem c52_veil : forall C g c ops ops', aead_sized C -> created g c -> same_but_text C c ops ops' ->
  answers C ops' c = answers C ops c /\
  exists ps ps', Forall2 same_look ps ps' /\
    flushed C ops c ++ c_out (run C ops c) = wire C ps /\ rev (c_log (run C ops c)) = sealings ps /\
    flushed C ops' c ++ c_out (run C ops' c) = wire C ps' /\ rev (c_log (run C ops' c)) = sealings ps'.
Proof. exact veil_run. Qed.
Print Assumptions c52_veil.

(* hence, with an encryption that hides the text but not its length, an observer
   sees exactly the same *)
Theorem c52_hidden : forall C g c ops ops', aead_sized C -> hiding C -> created g c -> same_but_text C c ops ops' ->
  outcomes C ops' c = outcomes C ops c /\ c_out (run C ops' c) = c_out (run C ops c).
Proof. exact veil_hidden. Qed.
Print Assumptions c52_hidden.

(* the toy server writes one text or a longer one after its flight *)
Definition c52_hello : bytes := c_out toy_c1.
Example c52_case : aead_sized toy /\ created toy_server toy_s0 /\
  same_but_text toy toy_s0 (with_text c52_hello secret) (with_text c52_hello decoy) /\
  blen (returned toy OFlush (run toy [OInit; ORecv c52_hello; OFlush; OSend secret] toy_s0)) = 4101.
Proof.
  split; [exact toy_aead_sized|]. split; [exact toy_s0_created|].
  split; [apply texts; vm_compute; reflexivity | vm_compute; reflexivity].
Qed.
Example c52_case2 : aead_sized blank /\ hiding blank /\ created toy_server toy_s0 /\
  same_but_text blank toy_s0 (with_text c52_hello secret) (with_text c52_hello decoy) /\
  blen (returned blank OFlush (run blank [OInit; ORecv c52_hello; OFlush; OSend secret] toy_s0)) = 4101.
Proof.
  split; [exact blank_sized|]. split; [exact blank_hiding|]. split; [exact toy_s0_created|].
  split; [apply texts; vm_compute; reflexivity | vm_compute; reflexivity].
Qed.
