(* C07, C08, C11, C13, C14, C15 *)
From Verif Require Import Base Iana Crypto Config Conn S_Hist S_Conn P_Monad P_Rec P_Buf Toy.

(* C07.  Whatever calls are made, each call other than data_to_send only
   appends to the output (that is what [emits] says, [e] is all that was
   emitted), what data_to_send returned is a prefix of it and the rest is what
   the next data_to_send returns; the same for the readable data. *)
Theorem c07_output_drained : forall C ops c,
  exists e, emits C ops c e /\
    flushed C ops c ++ c_out (run C ops c) = c_out c ++ e /\
    returned C OFlush (run C ops c) = c_out (run C ops c) /\
    c_out (after C OFlush (run C ops c)) = [].
Proof.
  intros C ops c. destruct (drained_out C ops c) as (e & E1 & E2).
  exists e. repeat split; assumption.
Qed.
Print Assumptions c07_output_drained.

Theorem c07_readable_drained : forall C ops c,
  exists e, delivers C ops c e /\
    readout C ops c ++ c_app (run C ops c) = c_app c ++ e /\
    returned C ORead (run C ops c) = c_app (run C ops c) /\
    c_app (after C ORead (run C ops c)) = [].
Proof.
  intros C ops c. destruct (drained_app C ops c) as (e & E1 & E2).
  exists e. repeat split; assumption.
Qed.
Print Assumptions c07_readable_drained.

(* a handshake, then data in both directions *)
Definition c07_ops := [OFlush; OSend (ascii_bytes "hello"%string); OFlush; ORead].
Example c07_case : blen (flushed toy c07_ops toy_c2) =? 0 = false /\ is_connected toy_c2 = true.
Proof. split; vm_compute; reflexivity. Qed.

(* C08 *)
Theorem c08_receive : forall C d c, d <> [] -> can_receive (c_state c) = true ->
  exists l, handles C (cset_in (c_in c ++ d) c) l /\
    c_app (snd (receive_data C d c)) = c_app c ++ concat (map delivered l).
Proof. exact receive_data_app. Qed.
Print Assumptions c08_receive.

(* the list above is the only one *)
Theorem c08_handles_unique : forall C c l, handles C c l -> forall l', handles C c l' -> l = l'.
Proof. exact handles_fun. Qed.
Print Assumptions c08_handles_unique.

Theorem c08_other_calls : forall C o c,
  (forall d, o <> ORecv d) -> o <> ORead -> c_app (after C o c) = c_app c.
Proof. exact others_app. Qed.
Print Assumptions c08_other_calls.

(* the client of the toy handshake receives a record from the server *)
Definition c08_rec := fst (data_to_send (run_snd (send_data toy (ascii_bytes "hi"%string)) (cset_out [] toy_s3))).
Example c08_case : match c08_rec with
  | Ok r => c_app (snd (receive_data toy r toy_c2)) = ascii_bytes "hi"%string
  | Err _ => False end.
Proof. vm_compute. reflexivity. Qed.

(* C11.  Full statement: for every c with c_state c = Failed and every history,
   the connection stays failed and nothing is emitted or delivered.  False
   because of close_receiving_end, which turns Failed into a closed state that
   can send again. *)
Theorem c11_failed_partial : forall C ops c, c_state c = Failed -> no_close_r ops ->
  c_state (run C ops c) = Failed /\ emits C ops c [] /\ delivers C ops c [].
Proof. exact failed_run. Qed.
Print Assumptions c11_failed_partial.

Definition c11_c := run toy [OInit; OFlush; OCloseR] toy_c0.
Definition c11_ops := [OCloseR; OSend (ascii_bytes "secret"%string)].
Theorem c11_failed_refuted : exists C g c ops,
  reachable C g c /\ c_state c = Failed /\
  c_state (run C ops c) <> Failed /\ c_out (run C ops c) <> c_out c.
Proof.
  exists toy, toy_client, c11_c, c11_ops. split.
  { exists toy_c0, [OInit; OFlush; OCloseR]. split; [|reflexivity].
    split; [vm_compute; reflexivity|]. split; [cbn; tauto|].
    exists false, (Some (ascii_bytes "example.org"%string)), false, (toy_rng 1 100), (toy_rng 1). vm_compute. reflexivity. }
  split; [vm_compute; reflexivity|]. split; vm_compute; discriminate.
Qed.
Print Assumptions c11_failed_refuted.

(* garbage makes the toy client fail; then it stays silent *)
Definition c11_failed := run_snd (receive_data toy [x17; x03; x03; x00; x01; x00]) toy_c1.
Example c11_case : c_state c11_failed = Failed /\ no_close_r [OFlush; ORecv [x01]; OSend [x02]; OCloseS] /\
  c_out (run toy [OFlush; ORecv [x01]; OSend [x02]; OCloseS] c11_failed) = [].
Proof. repeat split; vm_compute; reflexivity. Qed.

(* C13 *)
Theorem c13_nothing_accepted : forall C c ops d,
  is_post_handshake c = true ->
  let c1 := run C (OCloseR :: ops) c in
  exists e, receive_data C d c1 = (Err e, c1).
Proof.
  intros C c ops d H. apply deaf_receive. cbn [run]. apply deaf_run, close_r_deaf, H.
Qed.
Print Assumptions c13_nothing_accepted.
Example c13_case : is_post_handshake toy_c2 = true.
Proof. vm_compute. reflexivity. Qed.

(* C14.  Full statement of the last part: send_data raises after any history.
   False when close_receiving_end is called a second time. *)
Theorem c14_truncated : forall C c ops,
  is_post_handshake c = false ->
  c_state (after C OCloseR c) = Failed /\ is_connected (run C (OCloseR :: ops) c) = false.
Proof.
  intros C c ops H. split; [rewrite close_r_fails by exact H; reflexivity|].
  apply gone_not_connected. cbn [run]. apply gone_run. rewrite close_r_fails by exact H. exact I.
Qed.
Print Assumptions c14_truncated.
Theorem c14_cannot_send_partial : forall C c ops d,
  is_post_handshake c = false -> no_close_r ops ->
  let c1 := run C (OCloseR :: ops) c in send_data C d c1 = (Err XTLS, c1).
Proof.
  intros C c ops d H N. apply failed_send. cbn [run]. apply failed_run; [|exact N].
  rewrite close_r_fails by exact H. reflexivity.
Qed.
Print Assumptions c14_cannot_send_partial.
Theorem c14_cannot_send_refuted : exists C g c d,
  reachable C g c /\ is_post_handshake c = false /\
  exists c', send_data C d (run C [OCloseR; OCloseR] c) = (Ok tt, c').
Proof.
  exists toy, toy_client, (run toy [OInit] toy_c0), (ascii_bytes "secret"%string). split.
  { exists toy_c0, [OInit]. split; [|reflexivity].
    split; [vm_compute; reflexivity|]. split; [cbn; tauto|].
    exists false, (Some (ascii_bytes "example.org"%string)), false, (toy_rng 1 100), (toy_rng 1). vm_compute. reflexivity. }
  split; [vm_compute; reflexivity|].
  eexists. vm_compute. reflexivity.
Qed.
Print Assumptions c14_cannot_send_refuted.
Example c14_case : is_post_handshake toy_c1 = false.
Proof. vm_compute. reflexivity. Qed.

(* C15.  The loop of receive_data, which has no bound in Python, stops: there
   is a finite run of it, there is only one, and it is what receive_data does
   (a rekeying check follows, which can only raise). *)
Theorem c15_terminates : forall C d c, d <> [] -> can_receive (c_state c) = true ->
  exists x, loops C (cset_in (c_in c ++ d) c) x /\
    snd (receive_data C d c) = snd x /\
    (forall e, fst x = Err e -> fst (receive_data C d c) = Err e).
Proof. exact receive_data_loops. Qed.
Print Assumptions c15_terminates.
Theorem c15_one_run : forall C c x, loops C c x -> forall y, loops C c y -> x = y.
Proof. exact loops_fun. Qed.
Print Assumptions c15_one_run.
(* each turn but the last eats a record header at least *)
Theorem c15_consumes : forall C c c',
  guarded C (receive_one C) c = (Ok true, c') -> blen (c_in c') + 5 <= blen (c_in c).
Proof. exact guarded_lt. Qed.
Print Assumptions c15_consumes.
(* Full statement: when the loop returns and no handshake message is being
   reassembled, no complete record is left.  Missing: the loop also stops, and
   leaves complete records unread, after a handshake record that does not bring
   the reassembly buffer to four bytes. *)
Theorem c15_all_read_partial : forall C c c', loops C c (Ok tt, c') ->
  incomplete (c_in c') \/ stalled C c'.
Proof. intros C c c' H. exact (loop_rest C c _ H c' eq_refl). Qed.
Print Assumptions c15_all_read_partial.
Definition c15_input := [x16; x03; x03; x00; x00; x15; x03; x03; x00; x02; x01; x00].
Theorem c15_all_read_refuted : exists C g c d c',
  reachable C g c /\ receive_data C d c = (Ok tt, c') /\ c_inhs c = [] /\ c_inhs c' = [] /\
  ~ incomplete (c_in c').
Proof.
  exists toy, toy_client, (run toy [OInit] toy_c0), c15_input.
  eexists (snd (receive_data toy c15_input (run toy [OInit] toy_c0))). split.
  { exists toy_c0, [OInit]. split; [|reflexivity].
    split; [vm_compute; reflexivity|]. split; [cbn; tauto|].
    exists false, (Some (ascii_bytes "example.org"%string)), false, (toy_rng 1 100), (toy_rng 1). vm_compute. reflexivity. }
  split; [vm_compute; reflexivity|]. split; [vm_compute; reflexivity|]. split; [vm_compute; reflexivity|].
  intros [_ H]. vm_compute in H. destruct H; discriminate.
Qed.
Print Assumptions c15_all_read_refuted.
Example c15_case : c_in (snd (receive_data toy [x15; x03; x03; x00; x02; x01; x00; x16] toy_c1)) = [x16].
Proof. vm_compute. reflexivity. Qed.
