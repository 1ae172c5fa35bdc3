(* C82 *)
From Coq Require Import Sorted.
From Verif Require Import Base Serial Sio S_Sio P_Sio.
Local Open Scope N_scope.

(* the functions that the parsers are built on answer what the object answers *)
Theorem c82_reads n nlist nitem :
  agrees (sio_read (Some n)) (read_n n) /\ agrees (sio_read None) (fun s => Ok (read_all s)) /\
  agrees (sio_exactly n) (read_exactly n) /\ agrees (sio_int n) (read_int n) /\ agrees (sio_var n) (read_var n) /\
  agrees (sio_listint nlist nitem) (read_listint nlist nitem) /\ agrees (sio_listvar nlist nitem) (read_listvar nlist nitem) /\
  agrees sio_assert_eof (fun s => let* _ := assert_eof s in Ok (tt, s)).
Proof.
  exact (conj (agrees_read n) (conj agrees_read_all (conj (agrees_exactly n) (conj (agrees_int n) (conj (agrees_var n)
    (conj (agrees_listint nlist nitem) (conj (agrees_listvar nlist nitem) agrees_assert_eof))))))).
Qed.
Print Assumptions c82_reads.

(* so do blocks of limit around code for which this holds *)
Theorem c82_limit_block A n (body : N -> SM A) p : (forall l, calm (body l)) -> (forall l, agrees (body l) (p l)) ->
  agrees (sio_limit n body) (with_limit n p).
Proof. exact (agrees_limit n body p). Qed.
Print Assumptions c82_limit_block.
Example c82_case_block : (forall l : N, calm (sio_var 1)) /\ agrees (sio_limit 3 (fun _ => sio_var 1)) (with_limit 3 (fun _ => read_var 1)) /\
  with_limit 3 (fun _ => read_var 1) (stream_of [x02; x61; x62; x63]) = Ok ([x61; x62], mkStream [x02; x61; x62; x63] 3 []).
Proof.
  split; [intros _; exact (calm_var 1)|]. split; [|vm_compute; reflexivity].
  exact (agrees_limit 3 _ _ (fun _ => calm_var 1) (fun _ => agrees_var 1)).
Qed.

(* the functions that give the bytes written: they go where the stream stands *)
Theorem c82_writes n i b nlist nitem items vars :
  puts (io_write b) (Ok b) /\ puts (sio_write_int n i) (write_int n i) /\ puts (sio_write_var n b) (write_var n b) /\
  puts (sio_write_listint nlist nitem items) (write_listint nlist nitem items) /\
  puts (sio_write_listvar nlist nitem vars) (write_listvar nlist nitem vars).
Proof. exact (conj (io_write_over b) (conj (puts_int n i) (conj (puts_var n b) (conj (puts_listint nlist nitem items) (puts_listvar nlist nitem vars))))). Qed.
Print Assumptions c82_writes.

(* what was written is read back from the same position, up to the end of it *)
Theorem c82_written_read vs s s1 : Forall value_sizes vs -> s_pos s <= blen (s_data s) -> s_limits s = [] ->
  each put vs s = (Ok tt, s1) -> take_all vs (with_pos s1 (s_pos s)) = (Ok vs, s1).
Proof. exact (written_read vs s s1). Qed.
Print Assumptions c82_written_read.

(* code that only reads, with exceptions caught anywhere: the data stays, the
   position does not go back and stays inside the data and every limit *)
Theorem c82_read_only p s r s1 : reading p = true -> orderly s -> exec p s = (r, s1) ->
  s_data s1 = s_data s /\ s_pos s <= s_pos s1 /\ orderly s1.
Proof. exact (exec_reading p s r s1). Qed.
Print Assumptions c82_read_only.

(* looking ahead, whatever happens in the block, comes back *)
Theorem c82_lookahead p s : s_pos (snd (exec (CLook p) s)) = s_pos s.
Proof. exact (look_back p s). Qed.
Print Assumptions c82_lookahead.

(* a block of limit that completes ends at its limit *)
Theorem c82_limit_end n p s s1 : exec (CLimit n p) s = (Ok tt, s1) -> s_pos s1 = s_pos s + n.
Proof. exact (exec_limit_end n p s s1). Qed.
Print Assumptions c82_limit_end.

(* Full statement: the limits after some code are those before.  They are when
   the code catches no exception; otherwise limits may be left on top. *)
Theorem c82_limits_partial p s s1 : uncaught p = true -> exec p s = (Ok tt, s1) -> s_limits s1 = s_limits s.
Proof. exact (exec_limits p s s1). Qed.
Print Assumptions c82_limits_partial.
Theorem c82_limits_grow_partial p s : exists pre, s_limits (snd (exec p s)) = pre ++ s_limits s.
Proof. exact (exec_suffix p s). Qed.
Print Assumptions c82_limits_grow_partial.

(* a vector of two bytes holding a vector that is too long: after the error is
   caught the limit is still there, the third byte can no longer be read *)
Definition c82_bad : code := CTry (CLimit 2 (CCall (MVar 1))).
Definition c82_stream : stream := stream_of [x05; x06; x07].
Theorem c82_limits_refuted : exists p s s1, orderly s /\ reading p = true /\ exec p s = (Ok tt, s1) /\
  s_limits s1 <> s_limits s /\ fst (exec (CCall (MExactly 3)) s) = Ok tt /\ fst (exec (CSeq p (CCall (MExactly 2))) s) = Err XTooMuch.
Proof.
  exists c82_bad, c82_stream. eexists. split; [exact (orderly_new _)|]. split; [reflexivity|].
  split; [vm_compute; reflexivity|]. split; [discriminate|]. split; vm_compute; reflexivity.
Qed.
Print Assumptions c82_limits_refuted.
(* nor does the limit around it end as it should: "another limit was pop" *)
Example c82_case_outer : fst (exec (CLimit 3 (CSeq c82_bad (CCall (MExactly 1)))) c82_stream) = Err XRuntime.
Proof. vm_compute. reflexivity. Qed.

(* --- cases -------------------------------------------------------------------- *)
Definition c82_code : code :=
  CSeq (CLook (CSeq (CCall (MInt 2)) (CTry (CCall (MVar 1)))))
    (CSeq (CLimit 4 (CSeq (CCall (MInt 1)) (CSeq (CLook (CCall (MRead None))) (CCall (MVar 1))))) (CCall MEof)).
Example c82_case : reading c82_code = true /\ uncaught (CLimit 4 (CCall (MExactly 4))) = true /\ orderly (stream_of [x01; x02; x05; x06; x07]) /\
  exec c82_code (stream_of [x01; x02; x05; x06; x07]) = (Ok tt, mkStream [x01; x02; x05; x06; x07] 4 []) /\
  exec (CLimit 4 (CCall (MExactly 4))) (stream_of [x01; x02; x05; x06; x07]) = (Ok tt, mkStream [x01; x02; x05; x06; x07] 4 []).
Proof. split; [reflexivity|]. split; [reflexivity|]. split; [exact (orderly_new _)|]. split; vm_compute; reflexivity. Qed.
Definition c82_values : list value :=
  [VInt 2 0x304; VVar 1 [x61; x62]; VListInt 2 2 [0x1301; 0x1303]; VListVar 2 1 [[x68; x32]; []]].
(* over the two bytes at position 1 of a stream of three *)
Example c82_case_write : Forall value_sizes c82_values /\
  each put c82_values (mkStream [xff; xfe; xfd] 1 []) =
    (Ok tt, mkStream [xff; x03; x04; x02; x61; x62; x00; x04; x13; x01; x13; x03; x00; x04; x02; x68; x32; x00] 18 []) /\
  take_all c82_values (mkStream [xff; x03; x04; x02; x61; x62; x00; x04; x13; x01; x13; x03; x00; x04; x02; x68; x32; x00] 1 []) =
    (Ok c82_values, mkStream [xff; x03; x04; x02; x61; x62; x00; x04; x13; x01; x13; x03; x00; x04; x02; x68; x32; x00] 18 []).
Proof. split; [repeat constructor; discriminate|]. split; vm_compute; reflexivity. Qed.
