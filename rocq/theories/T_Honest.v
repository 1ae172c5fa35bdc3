(* C27 *)
From Verif Require Import Base Iana Crypto Config Ext Msg Cipher Conn S_Hist S_Conn S_Send S_Server S_Deliver S_Honest P_Deliver P_Honest10 P_Honest11 P_Honest12 Toy P_Toy P_HonestToy.

(* Full statement: with [honest_crypto C] and [compatible C gc gs c s] both
   endpoints end connected, with matching keys.  It is false, see the three
   theorems below: the client needs a max_fragment_length of 4096 or 16384, must
   guess the group that the server prefers, and the server must not prefer a
   suite of CCM.  [cp_auth] leaves out what cannot work: a server that wants a
   client to authenticate is never connected (c18_never_connected), a client
   with raw public keys cannot start (c27_raw_client); [cp_cert] a
   Certificate message that does not fit in one record, the first record of
   which is longer than a peer takes (c04_record_size_refuted). *)
Theorem c27_honest_partial : forall C gc gs c s, honest_crypto C -> compatible C gc gs c s ->
  wide_fragments gc -> first_share gc gs -> no_ccm gc gs ->
  smooth C (client_ops C c s) c /\ smooth C (server_ops C c s) s /\
  c_state (run C (client_ops C c s) c) = Connected /\ c_state (run C (server_ops C c s) s) = Connected /\
  linked (mkWorld (run C (client_ops C c s) c) (run C (server_ops C c s) s) [] [] [] [] [] []) /\
  alpn_agreed gc gs (run C (client_ops C c s) c) (run C (server_ops C c s) s).
Proof. exact honest_handshake. Qed.
Print Assumptions c27_honest_partial.

(* the flights may arrive in any pieces *)
Theorem c27_in_pieces : forall C gc gs c s ds1 ds2 ds3, honest_crypto C -> compatible C gc gs c s ->
  wide_fragments gc -> first_share gc gs -> no_ccm gc gs ->
  cut (flight1 C c) ds1 -> cut (flight2 C c s) ds2 -> cut (flight3 C c s) ds3 ->
  smooth C (client_cut ds2) c /\ smooth C (server_cut ds1 ds3) s /\
  run C (client_cut ds2) c = run C (client_ops C c s) c /\ run C (server_cut ds1 ds3) s = run C (server_ops C c s) s.
Proof. exact honest_cut. Qed.
Print Assumptions c27_in_pieces.

(* what such endpoints send each other afterwards arrives (C01) *)
Theorem c27_then_delivered : forall C gc gs c s w', honest_crypto C -> compatible C gc gs c s ->
  wide_fragments gc -> first_share gc gs -> no_ccm gc gs ->
  traffic C (mkWorld (run C (client_ops C c s) c) (run C (server_ops C c s) s) [] [] [] [] [] []) w' ->
  w_ab w' = [] -> c_out (w_a w') = [] -> w_got_b w' ++ returned C ORead (w_b w') = w_sent_a w'.
Proof. exact honest_then. Qed.
Print Assumptions c27_then_delivered.

Theorem c27_raw_client : forall C g c, created g c -> g_side g = Client ->
  opt_bool (g_public g) = true \/ g_trusted_keys g <> [] ->
  exists e, fst (step C OInit c) = Err e /\ c_out (after C OInit c) = [] /\ c_state (after C OInit c) = c_state c.
Proof. exact raw_client. Qed.
Print Assumptions c27_raw_client.

(* --- the toy endpoints ---------------------------------------------------- *)
Definition c27_groups := [x25519; secp256r1].
Ltac toys suite group :=
  apply (toy_compatible _ _ _ _ _ suite group);
  [ split; [vm_compute; reflexivity|]; split; [cbn; tauto|];
    exists false, (Some (ascii_bytes "example.org"%string)), false, (toy_rng 1 100), (toy_rng 1); reflexivity
  | split; [vm_compute; reflexivity|]; split; [cbn; tauto|];
    exists false, None, false, (toy_rng 2 100), (toy_rng 2); reflexivity
  | reflexivity | reflexivity | reflexivity | reflexivity | reflexivity | reflexivity | cbn; lia
  | split; [cbn; lia | repeat constructor]
  | eexists [], _; split; [reflexivity|]; split; [cbn; auto | intros ? []]
  | eexists [], _; split; [reflexivity|]; split; [cbn; auto | intros ? []] | cbn; auto ].

Definition c27_gc := toy_gc toy_suites c27_groups 16384.
Definition c27_gs := toy_gs toy_suites c27_groups.
Example c27_case : honest_crypto toy /\ compatible toy c27_gc c27_gs (toy_c c27_gc) (toy_s c27_gs) /\
  wide_fragments c27_gc /\ first_share c27_gc c27_gs /\ no_ccm c27_gc c27_gs.
Proof.
  split; [exact toy_honest|]. split; [toys TLS_CHACHA20_POLY1305_SHA256 x25519|]. split; [cbn; auto|].
  split; [exists x25519; split; [reflexivity|]; eexists [], _; split; [reflexivity|]; split; [cbn; auto | intros ? []]|].
  exists TLS_CHACHA20_POLY1305_SHA256. split; [eexists [], _; split; [reflexivity|]; split; [cbn; auto | intros ? []] | cbn; auto].
Qed.

(* a client with a smaller max_fragment_length *)
Definition c27_gc_less := toy_gc toy_suites c27_groups 4096.
Example c27_case_less : honest_crypto toy /\ compatible toy c27_gc_less c27_gs (toy_c c27_gc_less) (toy_s c27_gs) /\
  wide_fragments c27_gc_less /\ first_share c27_gc_less c27_gs /\ no_ccm c27_gc_less c27_gs.
Proof.
  split; [exact toy_honest|]. split; [toys TLS_CHACHA20_POLY1305_SHA256 x25519|]. split; [cbn; auto|].
  split; [exists x25519; split; [reflexivity|]; eexists [], _; split; [reflexivity|]; split; [cbn; auto | intros ? []]|].
  exists TLS_CHACHA20_POLY1305_SHA256. split; [eexists [], _; split; [reflexivity|]; split; [cbn; auto | intros ? []] | cbn; auto].
Qed.

(* a cut: the first flight byte by byte *)
Example c27_case3 : cut (flight1 toy (toy_c c27_gc)) (map (fun x => [x]) (flight1 toy (toy_c c27_gc))).
Proof.
  generalize (flight1 toy (toy_c c27_gc)). intro b. split.
  - induction b as [|x b IH]; [reflexivity|]. cbn [map concat app]. rewrite IH. reflexivity.
  - intros p H. apply in_map_iff in H as (x & <- & _). discriminate.
Qed.
Definition c27_raw : config :=
  mkConfig Client toy_suites c27_groups [ed25519] None None 5 [toy_cert] None None None 16384 true [] [].
Example c27_case2 : created c27_raw (toy_c c27_raw) /\ g_side c27_raw = Client /\ g_trusted_keys c27_raw <> [].
Proof.
  split; [|split; [reflexivity | discriminate]]. split; [vm_compute; reflexivity|]. split; [cbn; tauto|].
  exists false, (Some (ascii_bytes "example.org"%string)), false, (toy_rng 1 100), (toy_rng 1); reflexivity.
Qed.

(* a client that wants small fragments does not tell the server, the records
   of which (padded to 4096 bytes) it then refuses *)
Definition c27_gc_mfl := toy_gc toy_suites c27_groups 1024.
Theorem c27_mfl_refuted : exists C gc gs c s, honest_crypto C /\ compatible C gc gs c s /\
  first_share gc gs /\ no_ccm gc gs /\ never_connected C c s.
Proof.
  exists toy, c27_gc_mfl, c27_gs, (toy_c c27_gc_mfl), (toy_s c27_gs). split; [exact toy_honest|].
  split; [toys TLS_CHACHA20_POLY1305_SHA256 x25519|].
  split; [exists x25519; split; [reflexivity|]; eexists [], _; split; [reflexivity|]; split; [cbn; auto | intros ? []]|].
  split; [exists TLS_CHACHA20_POLY1305_SHA256; split; [eexists [], _; split; [reflexivity|]; split; [cbn; auto | intros ? []] | cbn; auto]|].
  apply (stuck_pump toy 2). vm_compute. reflexivity.
Qed.
Print Assumptions c27_mfl_refuted.

(* a server that prefers another group than the client asks for a second
   ClientHello, after which the hashes of the two differ (c24_client_refuted) *)
Definition c27_gs_retry := toy_gs toy_suites [secp256r1; x25519].
Theorem c27_retry_refuted : exists C gc gs c s, honest_crypto C /\ compatible C gc gs c s /\
  wide_fragments gc /\ no_ccm gc gs /\ never_connected C c s.
Proof.
  exists toy, c27_gc, c27_gs_retry, (toy_c c27_gc), (toy_s c27_gs_retry). split; [exact toy_honest|].
  split; [toys TLS_CHACHA20_POLY1305_SHA256 secp256r1|]. split; [cbn; auto|].
  split; [exists TLS_CHACHA20_POLY1305_SHA256; split; [eexists [], _; split; [reflexivity|]; split; [cbn; auto | intros ? []] | cbn; auto]|].
  apply (stuck_pump toy 3). vm_compute. reflexivity.
Qed.
Print Assumptions c27_retry_refuted.

(* no key of a CCM suite can be installed *)
Definition c27_ccm := TLS_AES_128_CCM_SHA256 :: toy_suites.
Definition c27_gc_ccm := toy_gc c27_ccm c27_groups 16384.
Definition c27_gs_ccm := toy_gs c27_ccm c27_groups.
Theorem c27_ccm_refuted : exists C gc gs c s, honest_crypto C /\ compatible C gc gs c s /\
  wide_fragments gc /\ first_share gc gs /\ never_connected C c s.
Proof.
  exists toy, c27_gc_ccm, c27_gs_ccm, (toy_c c27_gc_ccm), (toy_s c27_gs_ccm). split; [exact toy_honest|].
  split; [toys TLS_AES_128_CCM_SHA256 x25519|]. split; [cbn; auto|].
  split; [exists x25519; split; [reflexivity|]; eexists [], _; split; [reflexivity|]; split; [cbn; auto | intros ? []]|].
  apply (stuck_pump toy 2). vm_compute. reflexivity.
Qed.
Print Assumptions c27_ccm_refuted.
