(* C48, C49 *)
From Verif Require Import Base Iana Crypto Config Cipher Conn S_Hist S_Conn S_Send S_Nonce S_Alert S_Auth S_Deliver S_Integrity
  Toy P_Toy P_Integ4 P_IntegToy.

(* C48.  The two histories are arbitrary: the second endpoint may be given any
   bytes at all.  What it obtains is made of whole records of the first one,
   each at most once and in the order they were written. *)
Theorem c48_spliced : forall C ga gb a b opsA opsB, aead_sized C -> reachable C ga a -> reachable C gb b ->
  keyed a b -> room a -> established (c_state a) = true -> established (c_state b) = true ->
  unforgeable C a (c_log (run C opsA a)) ->
  exists E ps qs, c_log (run C opsA a) = rev E ++ c_log a /\ carried E ps /\ prefix (concat ps) (written C opsA a) /\
    subseq qs ps /\ readout C opsB b ++ c_app (run C opsB b) = c_app b ++ concat qs.
Proof. exact splice. Qed.
Print Assumptions c48_spliced.

(* two toy endpoints after their handshake, "a" and "b" written, a forged record
   between the two genuine ones *)
Definition c48_attack : list op := [ORecv (st_record 0 x61); ORead; ORecv st_forged; ORecv (st_record 1 x62); ORead].
Example c48_case : aead_sized strict /\ reachable strict toy_client st_a /\ reachable strict toy_server st_b /\
  keyed st_a st_b /\ room st_a /\ established (c_state st_a) = true /\ established (c_state st_b) = true /\
  unforgeable strict st_a (c_log (run strict st_ops st_a)) /\
  beqb (readout strict c48_attack st_b) [x61] = true /\ beqb (written strict st_ops st_a) [x61; x62] = true.
Proof.
  destruct st_ok as (Q & R & Ea & Cs & U). split; [exact strict_aead_sized|]. split; [exact st_a_reachable|]. split; [exact st_b_reachable|].
  split; [apply Q|]. split; [exact R|]. split; [exact Ea|]. split; [apply Q|]. split; [exact U|].
  split; vm_compute; reflexivity.
Qed.

(* C49.  Full statement: what the second endpoint obtains is the beginning of
   what was written, whatever it does.  Missing: it must not have closed its
   sending end, and must not have used up its write key. *)
Theorem c49_prefix_partial : forall C ga gb a b opsA opsB, aead_sized C -> reachable C ga a -> reachable C gb b ->
  keyed a b -> room a -> established (c_state a) = true -> established (c_state b) = true ->
  can_send (c_state b) = true -> c_app b = [] ->
  unforgeable C a (c_log (run C opsA a)) -> ~ In OCloseS opsB -> few (run C opsB b) ->
  prefix (readout C opsB b) (written C opsA a).
Proof. exact integrity. Qed.
Print Assumptions c49_prefix_partial.

(* the second endpoint closed its sending end: a forged record raises, but the
   connection stays open and skips a record *)
Definition c49_attack : list op := [OCloseS; ORecv st_forged; ORecv (st_record 1 x62); ORead].
Theorem c49_gap_refuted : exists C ga gb a b opsA opsB, aead_sized C /\ reachable C ga a /\ reachable C gb b /\
  keyed a b /\ room a /\ established (c_state a) = true /\ established (c_state b) = true /\
  can_send (c_state b) = true /\ c_app b = [] /\
  unforgeable C a (c_log (run C opsA a)) /\ few (run C opsB b) /\
  is_connected (run C opsB b) = true /\ ~ prefix (readout C opsB b) (written C opsA a).
Proof.
  exists strict, toy_client, toy_server, st_a, st_b, st_ops, c49_attack.
  destruct st_ok as (Q & R & Ea & Cs & U). split; [exact strict_aead_sized|]. split; [exact st_a_reachable|]. split; [exact st_b_reachable|].
  split; [apply Q|]. split; [exact R|]. split; [exact Ea|]. split; [apply Q|]. split; [exact Cs|]. split; [apply Q|]. split; [exact U|].
  split; [vm_compute; reflexivity|]. split; [vm_compute; reflexivity|].
  intros (r & H).
  assert (X : readout strict c49_attack st_b = [x62]) by (apply P_Base.beqb_eq; vm_compute; reflexivity).
  assert (Y : written strict st_ops st_a = [x61; x62]) by (apply P_Base.beqb_eq; vm_compute; reflexivity).
  rewrite X, Y in H. discriminate H.
Qed.
Print Assumptions c49_gap_refuted.

(* the hypotheses of the first theorem, for the history of c48_case *)
Example c49_case : can_send (c_state st_b) = true /\ c_app st_b = [] /\ ~ In OCloseS c48_attack /\ few (run strict c48_attack st_b).
Proof.
  destruct st_ok as (Q & R & Ea & Cs & U). split; [exact Cs|]. split; [apply Q|]. split.
  - intros [H|[H|[H|[H|[H|[]]]]]]; discriminate H.
  - vm_compute. reflexivity.
Qed.
