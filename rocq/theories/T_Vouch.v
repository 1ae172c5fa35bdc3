(* C58 *)
From Verif Require Import Base Iana Crypto Config Cipher Conn S_Hist S_Conn S_Send S_Nonce S_Alert S_Auth S_Deliver S_Integrity S_Heed S_Vouch
  Toy P_Toy P_IntegToy P_Vouch2 P_VouchToy.

(* C58.  The second endpoint was given any bytes by an attacker and stopped at
   the first exception.  If a close_notify was among what it accepted, it has
   obtained all that the first endpoint had written when it closed. *)
Theorem c58_vouched : forall C ga gb a b opsA opsB, aead_sized C -> reachable C ga a -> reachable C gb b ->
  keyed a b -> room a -> established (c_state a) = true -> c_state b = Connected -> c_app b = [] ->
  unforgeable C a (c_log (run C opsA a)) -> heeded C opsB b -> ~ In OCloseS opsB ->
  was_closed (c_state (run C opsB b)) ->
  exists o1 o o2, last_call C opsA a o1 o o2 /\
    prefix (written C o1 a) (readout C opsB b ++ c_app (run C opsB b)).
Proof. exact vouch. Qed.
Print Assumptions c58_vouched.

(* all that was written at all, if the first endpoint wrote nothing afterwards *)
Theorem c58_entire : forall C ga gb a b opsA opsB, aead_sized C -> reachable C ga a -> reachable C gb b ->
  keyed a b -> room a -> established (c_state a) = true -> c_state b = Connected -> c_app b = [] ->
  unforgeable C a (c_log (run C opsA a)) -> heeded C opsB b -> ~ In OCloseS opsB ->
  was_closed (c_state (run C opsB b)) -> last_words C opsA a ->
  readout C opsB b ++ c_app (run C opsB b) = written C opsA a.
Proof. exact vouch_all. Qed.
Print Assumptions c58_entire.

Example c58_case : aead_sized vo /\ reachable vo toy_client vo_a /\ reachable vo toy_server vo_b /\
  keyed vo_a vo_b /\ room vo_a /\ established (c_state vo_a) = true /\ c_state vo_b = Connected /\ c_app vo_b = [] /\
  unforgeable vo vo_a (c_log (run vo vo_ops vo_a)) /\ heeded vo vo_more vo_b /\ ~ In OCloseS vo_more /\
  was_closed (c_state (run vo vo_more vo_b)) /\ last_words vo vo_ops vo_a /\
  readout vo vo_more vo_b ++ c_app (run vo vo_more vo_b) = [x61; x62].
Proof.
  destruct vo_ok as (Q & R & Ea & Eb & U & Hd & Cl & W & Rd & Ap).
  split; [exact vo_aead_sized|]. split; [exact vo_a_reachable|]. split; [exact vo_b_reachable|].
  split; [apply Q|]. split; [exact R|]. split; [exact Ea|]. split; [exact Eb|]. split; [apply Q|]. split; [exact U|]. split; [exact Hd|].
  split; [intros [H|[H|[H|[H|[]]]]]; discriminate H|]. split; [exact Cl|]. split; [exact vo_last|]. rewrite Rd, Ap. reflexivity.
Qed.
