(* C28, C29: the byte stream every parser is built on. *)
From Verif Require Import Base Serial S_Serial P_Serial2.

(* C28: what was written is what is read, wherever it is in the stream and
   whatever limits are in force around it. *)
Theorem c28_int : forall n v b pre post limits,
  (n <> 0)%nat -> write_int n v = Ok b -> fits limits (blen pre + blen b) ->
  read_int (N.of_nat n) (before pre b post limits) = Ok (v, after pre b post limits).
Proof. exact int_roundtrip. Qed.
Print Assumptions c28_int.

Theorem c28_var : forall n d b pre post limits,
  (n <> 0)%nat -> write_var n d = Ok b -> fits limits (blen pre + blen b) ->
  read_var (N.of_nat n) (before pre b post limits) = Ok (d, after pre b post limits).
Proof. exact var_roundtrip. Qed.
Print Assumptions c28_var.

Theorem c28_listint : forall n m l b pre post limits,
  (n <> 0)%nat -> (m <> 0)%nat -> write_listint n m l = Ok b -> fits limits (blen pre + blen b) ->
  read_listint (N.of_nat n) (N.of_nat m) (before pre b post limits) = Ok (l, after pre b post limits).
Proof. exact listint_roundtrip. Qed.
Print Assumptions c28_listint.

Theorem c28_listvar : forall n m l b pre post limits,
  (n <> 0)%nat -> (m <> 0)%nat -> write_listvar n m l = Ok b -> fits limits (blen pre + blen b) ->
  read_listvar (N.of_nat n) (N.of_nat m) (before pre b post limits) = Ok (l, after pre b post limits).
Proof. exact listvar_roundtrip. Qed.
Print Assumptions c28_listvar.

(* Writing succeeds exactly when the value fits its field, and raises
   OverflowError otherwise. *)
Theorem c28_int_range : forall n v,
  (v < 256 ^ N.of_nat n /\ exists b, write_int n v = Ok b) \/
  (256 ^ N.of_nat n <= v /\ write_int n v = Err XOverflow).
Proof. exact write_int_total. Qed.
Print Assumptions c28_int_range.

Theorem c28_var_range : forall n d,
  (blen d < 256 ^ N.of_nat n /\ exists b, write_var n d = Ok b) \/
  (256 ^ N.of_nat n <= blen d /\ write_var n d = Err XOverflow).
Proof. exact write_var_total. Qed.
Print Assumptions c28_var_range.

Theorem c28_listint_range : forall n m l,
  ((N.of_nat (length l) * N.of_nat m < 256 ^ N.of_nat n /\ Forall (fun v => v < 256 ^ N.of_nat m) l) /\
   exists b, write_listint n m l = Ok b) \/
  (~ (N.of_nat (length l) * N.of_nat m < 256 ^ N.of_nat n /\ Forall (fun v => v < 256 ^ N.of_nat m) l) /\
   write_listint n m l = Err XOverflow).
Proof. exact write_listint_total. Qed.
Print Assumptions c28_listint_range.

Theorem c28_listvar_range : forall n m l,
  ((vars_size m l < 256 ^ N.of_nat n /\ Forall (fun d => blen d < 256 ^ N.of_nat m) l) /\
   exists b, write_listvar n m l = Ok b) \/
  (~ (vars_size m l < 256 ^ N.of_nat n /\ Forall (fun d => blen d < 256 ^ N.of_nat m) l) /\
   write_listvar n m l = Err XOverflow).
Proof. exact write_listvar_total. Qed.
Print Assumptions c28_listvar_range.

Example c28_int_ex : write_int 2 772 = Ok [x03; x04] /\
  read_int 2 (before [xff] [x03; x04] [x09] [3]) = Ok (772, after [xff] [x03; x04] [x09] [3]).
Proof. split; reflexivity. Qed.
Example c28_listvar_ex : write_listvar 2 1 [[x01]; []; [x02; x03]] = Ok [x00; x06; x01; x01; x00; x02; x02; x03].
Proof. reflexivity. Qed.
Example c28_listint_ex : write_listint 2 2 [1; 515] = Ok [x00; x04; x00; x01; x02; x03].
Proof. reflexivity. Qed.
Example c28_overflow_ex : write_int 1 256 = Err XOverflow.
Proof. reflexivity. Qed.

(* C29: any program of reads that succeeds stays inside the data and the
   innermost limit, leaves the data and limits alone, and every read handed
   out exactly the bytes between its start and its end. *)
Theorem c29_reads_stay_inside : forall fuel prog s out s1,
  inside s -> rrun fuel prog s = Ok (out, s1) ->
  s_data s1 = s_data s /\ s_limits s1 = s_limits s /\ s_pos s <= s_pos s1 /\ inside s1 /\
  Forall (chunk_ok (s_data s) (s_pos s) (s_pos s1)) out.
Proof. exact rrun_safe. Qed.
Print Assumptions c29_reads_stay_inside.

(* A length-limited element is consumed exactly: otherwise an error is raised. *)
Theorem c29_limit_is_exact : forall fuel n body s out s1,
  inside s -> rrun (S (S fuel)) [RLimit n body] s = Ok (out, s1) -> s_pos s1 = s_pos s + n.
Proof. exact rrun_limit. Qed.
Print Assumptions c29_limit_is_exact.

Example c29_ex :
  rrun 10 [RInt 1; RLimit 3 [RExactly 1; RLimit 2 [RAll]]; RRead 9]
    (stream_of [x03; x0a; x0b; x0c; x0d]) =
  Ok ([(1, 2, [x0a]); (2, 4, [x0b; x0c]); (4, 5, [x0d])], mkStream [x03; x0a; x0b; x0c; x0d] 5 []).
Proof. reflexivity. Qed.
Example c29_overrun_ex :
  rrun 5 [RLimit 2 [RExactly 3]] (stream_of [x03; x0a; x0b; x0c; x0d]) = Err XTooMuch /\
  rrun 5 [RLimit 2 [RExactly 1]] (stream_of [x03; x0a; x0b; x0c; x0d]) = Err XTooMuch.
Proof. split; reflexivity. Qed.
