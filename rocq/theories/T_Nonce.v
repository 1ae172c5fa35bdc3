(* C06 *)
From Verif Require Import Base Iana Crypto Config Msg Cipher Conn S_Hist S_Conn S_Send S_Nonce P_Send P_Hist P_Wire P_Nonce P_Carry Toy.

(* under each of the traffic keys it ever installed: one key, one suite, no
   nonce twice, no more records than the limit *)
Theorem c06_nonces : forall C g c epoch, reachable C g c -> one_key (under epoch (c_log c)).
Proof. exact reachable_one_key. Qed.
Print Assumptions c06_nonces.
(* what is in the log is what was protected: while encryption is on, the records
   emitted are those of the new sealings *)
Theorem c06_log : forall C k c c' x, valid_mfl (max_frag c) -> c_cipher c = Some x -> enc_on c = true ->
  send_content C k c = (Ok tt, c') ->
  exists ss, c_log c' = rev ss ++ c_log c /\
    c_out c' = c_out c ++ concat (map (fun s => sealed_record C (se_suite s) s) ss) /\
    Forall (fun s => se_epoch s = epoch_w c /\ Some (se_key s) = d_key (cs_w x)) ss.
Proof. exact send_logged. Qed.
Print Assumptions c06_log.
(* whatever is called, the log and the output grow together *)
Theorem c06_log_grows : forall C g c o, reachable C g c -> o <> OFlush ->
  exists rs ss, c_out (after C o c) = c_out c ++ concat rs /\ c_log (after C o c) = rev ss ++ c_log c /\
    carried C rs ss.
Proof. exact carry_step. Qed.
Print Assumptions c06_log_grows.
Theorem c06_log_flush : forall C c, c_log (after C OFlush c) = c_log c.
Proof. exact flush_log. Qed.
Print Assumptions c06_log_flush.
(* the client's Finished under its handshake key, then three records under its
   application key *)
Example c06_case :
  let c := run toy [OInit; ORecv (c_out toy_s2); OSend [x61]; OSend [x61]; OSend [x61]] toy_c0 in
  length (under 1 (c_log c)) = 1%nat /\ length (under 2 (c_log c)) = 3%nat /\
  NoDup (map se_nonce (under 2 (c_log c))).
Proof.
  vm_compute. repeat split. repeat constructor; cbn; intuition discriminate.
Qed.
