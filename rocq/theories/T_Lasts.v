(* C77 *)
From Verif Require Import Base Iana Crypto Config Cipher Conn S_Hist S_Conn S_Nonce S_Alert S_Deliver S_Honest S_Lasts
  P_Deliver P_Lasts P_Lasts2 Toy P_Toy P_HonestToy T_Deliver T_Honest.

(* Full statement: between two endpoints linked to each other no call of
   receive_data raises, however much was exchanged before.  Missing: this holds
   as long as the receiver wrote 1024 records less than the limit of its key,
   and is false afterwards, see the other theorems. *)
Theorem c77_lasts_partial : forall C w w' p rest, aead_correct C -> built C w -> linked w -> traffic C w w' ->
  w_ab w' = p ++ rest -> p <> [] -> fresh (w_b w') -> fst (step C (ORecv p) (w_b w')) = Ok [].
Proof. exact lasts. Qed.
Print Assumptions c77_lasts_partial.

(* from there on every call raises: the code wants to change its keys, and
   cannot (what was received is kept all the same, C01) *)
Theorem c77_tired : forall C w w' p rest, aead_correct C -> built C w -> linked w -> traffic C w w' ->
  w_ab w' = p ++ rest -> p <> [] -> tired (w_b w') ->
  fst (step C (ORecv p) (w_b w')) = Err (if can_send (c_state (w_b w')) then XNotImpl else XTLS).
Proof. exact tires. Qed.
Print Assumptions c77_tired.

(* and, once the limit is reached, with another exception *)
Theorem c77_worn : forall C w w' p rest, aead_correct C -> built C w -> linked w -> traffic C w w' ->
  w_ab w' = p ++ rest -> p <> [] -> worn (w_b w') -> fst (step C (ORecv p) (w_b w')) = Err XStop.
Proof. exact worn_receives. Qed.
Print Assumptions c77_worn.

(* then no data can be sent, and the connection cannot be closed properly *)
Theorem c77_mute : forall C g c, reachable C g c -> enc_on c = true -> worn c ->
  (forall d, exists e, fst (step C (OSend d) c) = Err e) /\
  (can_send (c_state c) = true -> exists e, fst (step C OCloseS c) = Err e).
Proof. intros C g c R E W. split; [intro d; exact (worn_sends C g c d R E W) | exact (worn_closes C g c R E W)]. Qed.
Print Assumptions c77_mute.

(* every two endpoints that may still write get there by writing *)
Theorem c77_wears : forall C w, aead_correct C -> aead_sized C -> built C w -> linked w -> fresh (w_a w) -> fresh (w_b w) ->
  can_send_app (c_state (w_a w)) = true -> can_send_app (c_state (w_b w)) = true ->
  exists w' p, traffic C w w' /\ w_ab w' = p /\ p <> [] /\ tired (w_b w') /\
    fst (step C (ORecv p) (w_b w')) = Err XNotImpl.
Proof. exact wears. Qed.
Print Assumptions c77_wears.

(* in particular those of an honest handshake (C27), which start fresh *)
Theorem c77_honest : forall C gc gs c s, honest_crypto C -> compatible C gc gs c s ->
  wide_fragments gc -> first_share gc gs -> no_ccm gc gs ->
  let w := honest_world C c s in
  built C w /\ linked w /\ fresh (w_a w) /\ fresh (w_b w) /\
  can_send_app (c_state (w_a w)) = true /\ can_send_app (c_state (w_b w)) = true.
Proof. exact honest_fresh. Qed.
Print Assumptions c77_honest.

(* two toy endpoints that prefer AES-GCM *)
Definition c77_suites := [TLS_AES_128_GCM_SHA256; TLS_CHACHA20_POLY1305_SHA256].
Definition c77_gc := toy_gc c77_suites c27_groups 16384.
Definition c77_gs := toy_gs c77_suites c27_groups.
Example c77_case : honest_crypto toy /\ compatible toy c77_gc c77_gs (toy_c c77_gc) (toy_s c77_gs) /\
  wide_fragments c77_gc /\ first_share c77_gc c77_gs /\ no_ccm c77_gc c77_gs.
Proof.
  split; [exact toy_honest|]. split; [toys TLS_AES_128_GCM_SHA256 x25519|]. split; [cbn; auto|].
  split; [exists x25519; split; [reflexivity|]; eexists [], _; split; [reflexivity|]; split; [cbn; auto | intros ? []]|].
  exists TLS_AES_128_GCM_SHA256. split; [eexists [], _; split; [reflexivity|]; split; [cbn; auto | intros ? []] | cbn; auto].
Qed.
Theorem c77_rekey_refuted : exists C gc gs c s w' p, honest_crypto C /\ compatible C gc gs c s /\
  traffic C (honest_world C c s) w' /\ w_ab w' = p /\ p <> [] /\ fst (step C (ORecv p) (w_b w')) = Err XNotImpl.
Proof.
  destruct c77_case as (A & B & D & E & F).
  destruct (honest_wears toy c77_gc c77_gs _ _ A B D E F) as (w' & p & H).
  exists toy, c77_gc, c77_gs, (toy_c c77_gc), (toy_s c77_gs), w', p. auto.
Qed.
Print Assumptions c77_rekey_refuted.
Theorem c77_close_refuted : exists C gc gs c s w', honest_crypto C /\ compatible C gc gs c s /\
  traffic C (honest_world C c s) w' /\ c_state (w_b w') = Connected /\
  (forall d, exists e, fst (step C (OSend d) (w_b w')) = Err e) /\ exists e, fst (step C OCloseS (w_b w')) = Err e.
Proof.
  destruct c77_case as (A & B & D & E & F).
  destruct (honest_mute toy c77_gc c77_gs _ _ A B D E F) as (w' & H).
  exists toy, c77_gc, c77_gs, (toy_c c77_gc), (toy_s c77_gs), w'. auto.
Qed.
Print Assumptions c77_close_refuted.

(* a fresh receiver with something to receive *)
Example c77_case_fresh : exists w' p, traffic toy (honest_world toy (toy_c c77_gc) (toy_s c77_gs)) w' /\
  w_ab w' = p /\ p <> [] /\ fresh (w_b w').
Proof.
  destruct c77_case as (A & B & D & E & F).
  destruct (honest_fresh toy c77_gc c77_gs _ _ A B D E F) as (Bu & Li & Fa & Fb & Ca & Cb).
  exact (first_record toy _ (hc_correct _ A) (hc_aead _ A) Bu Li Fa Fb Ca).
Qed.
