(* C74 *)
From Verif Require Import Base Iana Crypto Config Cipher Conn S_Hist S_Conn S_Send S_Nonce S_Alert S_Deliver S_Half P_Half Toy P_Toy T_Alert T_Server T_Deliver.

(* at any moment, whatever each endpoint wrote, closed, received and read in
   the meantime, what was read is the beginning of what was written, and both
   endpoints still receive *)
Theorem c74_prefix : forall C w e, aead_correct C -> fresh_pair w -> ending_traffic C (opened w) e ->
  prefix (w_got_b (e_w e) ++ c_app (w_b (e_w e))) (w_sent_a (e_w e)) /\
  prefix (w_got_a (e_w e) ++ c_app (w_a (e_w e))) (w_sent_b (e_w e)) /\
  established (c_state (w_a (e_w e))) = true /\ established (c_state (w_b (e_w e))) = true.
Proof. intros C w e A. exact (halves C A w e). Qed.
Print Assumptions c74_prefix.

(* once all that an endpoint sent has arrived, the other one has all that was
   written, and it knows whether the first one closed *)
Theorem c74_arrived : forall C w e, aead_correct C -> fresh_pair w -> ending_traffic C (opened w) e -> arrived (e_w e) ->
  w_got_b (e_w e) ++ returned C ORead (w_b (e_w e)) = w_sent_a (e_w e) /\
  (e_b e = false -> c_state (w_b (e_w e)) = if e_a e then Closed true true else Connected).
Proof. intros C w e A. exact (all_arrived C A w e). Qed.
Print Assumptions c74_arrived.

(* it does not know before it has everything *)
Theorem c74_told : forall C w e, aead_correct C -> fresh_pair w -> ending_traffic C (opened w) e ->
  e_b e = false -> c_state (w_b (e_w e)) <> Connected ->
  e_a e = true /\ arrived (e_w e) /\ w_got_b (e_w e) ++ returned C ORead (w_b (e_w e)) = w_sent_a (e_w e).
Proof. intros C w e A. exact (told C A w e). Qed.
Print Assumptions c74_told.

(* an endpoint that has not closed can write and close, whatever it was told *)
Theorem c74_writes : forall C w e g d, aead_correct C -> aead_sized C -> fresh_pair w -> ending_traffic C (opened w) e -> e_b e = false ->
  reachable C g (w_b (e_w e)) -> room (w_b (e_w e)) -> short (w_b (e_w e)) d -> fst (step C (OSend d) (w_b (e_w e))) = Ok [].
Proof. intros C w e g d A. exact (open_writes C A w e g d). Qed.
Print Assumptions c74_writes.
Theorem c74_closes : forall C w e g, aead_correct C -> aead_sized C -> fresh_pair w -> ending_traffic C (opened w) e -> e_b e = false ->
  reachable C g (w_b (e_w e)) -> room (w_b (e_w e)) -> fst (step C OCloseS (w_b (e_w e))) = Ok [].
Proof. intros C w e g A. exact (close_returns C A w e g). Qed.
Print Assumptions c74_closes.

(* the first endpoint says "hi" and closes, the second answers "yo" and closes *)
Example c74_case : exists e e1, ending_traffic toy (opened c01_world) e1 /\ ends_moves toy e1 e /\
  e_a e1 = true /\ e_b e1 = true /\ w_got_b (e_w e) = [x68; x69] /\ w_got_a (e_w e) = [x79; x6f] /\ arrived (e_w e) /\ arrived (swap (e_w e)).
Proof.
  destruct c01_case as (Li & _).
  apply (farewell toy c43_c c17_s [x68; x69] [x79; x6f] toy_aead_correct).
  - split; [exact Li|]. split; vm_compute; reflexivity.
  - vm_compute; reflexivity.
  - vm_compute; reflexivity.
  - vm_compute; reflexivity.
  - vm_compute; reflexivity.
  - vm_compute; reflexivity.
  - vm_compute; reflexivity.
  - vm_compute; reflexivity.
  - vm_compute; reflexivity.
Qed.
