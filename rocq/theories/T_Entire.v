(* C53 *)
From Verif Require Import Base Iana Crypto Config Ext Msg Cipher Conn S_Hist S_Conn S_Send S_Nonce S_Alert S_Utils S_Keys S_Auth S_Server S_Codec S_Deliver S_Agree S_Integrity S_Entire
  Toy P_Toy P_IntegToy P_AgreeToy P_EntireToy P_Entire3 T_Agree.

(* C53.  Integrity from the creation of the connections: the two histories
   [opsA], [opsB] lead from the creation to Connected, and go on with [moreA],
   [moreB]; all are arbitrary, the endpoints may be given any bytes.  When the
   two keys are the same, all that the second endpoint ever obtains is made of
   whole records of the first one, each at most once and in their order. *)
Theorem c53_spliced : forall C ga gb a0 b0 opsA opsB moreA moreB, aead_sized C -> created ga a0 -> created gb b0 ->
  c_state (run C opsA a0) = Connected -> c_state (run C opsB b0) = Connected -> key_shared (run C opsA a0) (run C opsB b0) ->
  unforgeable C (run C opsA a0) (c_log (run C moreA (run C opsA a0))) ->
  exists E L ps qs, c_log (run C moreA (run C opsA a0)) = rev E ++ L /\ carried E ps /\
    prefix (concat ps) (written_since C (opsA ++ moreA) a0) /\ subseq qs ps /\
    readout C (opsB ++ moreB) b0 ++ c_app (run C moreB (run C opsB b0)) = concat qs.
Proof.
  exact (fun C ga gb a0 b0 opsA opsB moreA moreB As Za Zb Sa Sb K U =>
    proj1 (entire_both C As ga gb a0 b0 opsA opsB moreA moreB Za Zb Sa Sb K U)).
Qed.
Print Assumptions c53_spliced.

(* Full statement: what the second endpoint ever reads is the beginning of what
   the first one ever wrote.  Missing: the reader must not have closed its
   sending end nor used up its write key (C49), and what a server wrote before
   it had the client's Finished does not count ([written_since]). *)
Theorem c53_prefix_partial : forall C ga gb a0 b0 opsA opsB moreA moreB, aead_sized C -> created ga a0 -> created gb b0 ->
  c_state (run C opsA a0) = Connected -> c_state (run C opsB b0) = Connected -> key_shared (run C opsA a0) (run C opsB b0) ->
  unforgeable C (run C opsA a0) (c_log (run C moreA (run C opsA a0))) ->
  ~ In OCloseS moreB -> few (run C moreB (run C opsB b0)) ->
  prefix (readout C (opsB ++ moreB) b0) (written_since C (opsA ++ moreA) a0).
Proof.
  exact (fun C ga gb a0 b0 opsA opsB moreA moreB As Za Zb Sa Sb K U =>
    proj2 (entire_both C As ga gb a0 b0 opsA opsB moreA moreB Za Zb Sa Sb K U)).
Qed.
Print Assumptions c53_prefix_partial.

(* the server writes before the client's Finished: this is sent under the
   handshake keys.  Whoever removes these records makes the client read the
   rest, and both are connected. *)
Theorem c53_early_refuted : exists C ga gb a0 b0 opsA opsB moreA moreB, aead_sized C /\ created ga a0 /\ created gb b0 /\
  c_state (run C opsA a0) = Connected /\ c_state (run C opsB b0) = Connected /\ key_shared (run C opsA a0) (run C opsB b0) /\
  unforgeable C (run C opsA a0) (c_log (run C moreA (run C opsA a0))) /\
  ~ In OCloseS moreB /\ few (run C moreB (run C opsB b0)) /\ c_state (run C moreB (run C opsB b0)) = Connected /\
  ~ prefix (readout C (opsB ++ moreB) b0) (written C (opsA ++ moreA) a0).
Proof.
  exists ea, toy_server, toy_client, toy_s0, toy_c0, ea_ops_s, ea_ops_c, ea_more_s, ea_more_c.
  pose proof ea_ok as E. unfold ea_c, ea_s in E. destruct E as (E1 & E2 & E3 & E4 & E5 & E6 & E7 & E8).
  split; [exact ea_aead_sized|]. split; [exact toy_s0_created|]. split; [exact toy_c0_created|].
  split; [exact E2|]. split; [exact E1|]. split; [exact E3|]. split; [exact E4|].
  split; [intros [H|[H|[]]]; discriminate H|]. split; [exact E5|]. split; [exact E6|].
  rewrite E7, E8. intros (r & H). discriminate H.
Qed.
Print Assumptions c53_early_refuted.

(* With C51: a client and a server with the same server Finished.  What the
   server reads is the beginning of what the client wrote. *)
Theorem c53_server_partial : forall C gc gs c0 s0 opsC opsS moreC moreS sd, aead_sized C -> hmac_sized C -> hash_sized C ->
  g_side gc = Client -> g_side gs = Server -> created gc c0 -> created gs s0 -> own_random s0 ->
  c_state (run C opsC c0) = Connected -> c_state (run C opsS s0) = Connected -> few (run C opsC c0) -> few (run C opsS s0) ->
  Forall (Forall (fun b => 32 <= bN b <= 126)) (g_alpn gc) -> host_fine C (c_host (run C opsC c0)) ->
  dh_commutes C (c_rng (run C opsC c0)) (c_rng (run C opsS s0)) ->
  In (SFin sd) (c_hs (run C opsC c0)) -> In (SFin sd) (c_hs (run C opsS s0)) ->
  unforgeable C (run C opsC c0) (c_log (run C moreC (run C opsC c0))) -> ~ In OCloseS moreS -> few (run C moreS (run C opsS s0)) ->
  prefix (readout C (opsS ++ moreS) s0) (written C (opsC ++ moreC) c0) \/
  finished_clash C (run C opsC c0) (run C opsS s0) \/ digest_mixup C gc (run C opsC c0) (run C opsS s0).
Proof. exact (fun C gc gs c0 s0 opsC opsS moreC moreS sd As Hs Hh => final_server C As Hs Hh gc gs c0 s0 opsC opsS moreC moreS sd). Qed.
Print Assumptions c53_server_partial.

(* and what the client reads is the beginning of what the server wrote after
   the handshake *)
Theorem c53_client_partial : forall C gc gs c0 s0 opsC opsS moreC moreS sd, aead_sized C -> hmac_sized C -> hash_sized C ->
  g_side gc = Client -> g_side gs = Server -> created gc c0 -> created gs s0 -> own_random s0 ->
  c_state (run C opsC c0) = Connected -> c_state (run C opsS s0) = Connected -> few (run C opsC c0) -> few (run C opsS s0) ->
  Forall (Forall (fun b => 32 <= bN b <= 126)) (g_alpn gc) -> host_fine C (c_host (run C opsC c0)) ->
  dh_commutes C (c_rng (run C opsC c0)) (c_rng (run C opsS s0)) ->
  In (SFin sd) (c_hs (run C opsC c0)) -> In (SFin sd) (c_hs (run C opsS s0)) ->
  unforgeable C (run C opsS s0) (c_log (run C moreS (run C opsS s0))) -> ~ In OCloseS moreC -> few (run C moreC (run C opsC c0)) ->
  prefix (readout C (opsC ++ moreC) c0) (written_since C (opsS ++ moreS) s0) \/
  finished_clash C (run C opsC c0) (run C opsS s0) \/ digest_mixup C gc (run C opsC c0) (run C opsS s0).
Proof. exact (fun C gc gs c0 s0 opsC opsS moreC moreS sd As Hs Hh => final_client C As Hs Hh gc gs c0 s0 opsC opsS moreC moreS sd). Qed.
Print Assumptions c53_client_partial.

(* the first record arrives together with the client's Finished, the second one
   twice *)
Example c53_case : aead_sized strict /\ hmac_sized strict /\ hash_sized strict /\
  g_side toy_client = Client /\ g_side toy_server = Server /\ created toy_client toy_c0 /\ created toy_server toy_s0 /\ own_random toy_s0 /\
  c_state en_c = Connected /\ c_state en_s = Connected /\ few en_c /\ few en_s /\
  Forall (Forall (fun b => 32 <= bN b <= 126)) (g_alpn toy_client) /\ host_fine strict (c_host en_c) /\ dh_commutes strict (c_rng en_c) (c_rng en_s) /\
  (exists sd, In (SFin sd) (c_hs en_c) /\ In (SFin sd) (c_hs en_s)) /\
  unforgeable strict en_c (c_log (run strict en_more_c en_c)) /\ ~ In OCloseS en_more_s /\ few (run strict en_more_s en_s) /\ key_shared en_c en_s /\
  readout strict (en_ops_s ++ en_more_s) toy_s0 = [x61; x62] /\ written strict (en_ops_c ++ en_more_c) toy_c0 = [x61; x62].
Proof.
  pose proof en_ok as E. destruct E as (E1 & E2 & E3 & E4 & E5 & E6 & E7 & E8 & E9 & E10).
  split; [exact strict_aead_sized|]. split; [exact P_Toy.toy_hmac_sized|]. split; [exact P_Toy.toy_hash_sized|]. split; [reflexivity|]. split; [reflexivity|].
  split; [exact toy_c0_created|]. split; [exact toy_s0_created|]. split; [exact toy_s0_random|].
  split; [exact E1|]. split; [exact E2|]. split; [exact E3|]. split; [exact E4|].
  split; [repeat constructor; vm_compute; discriminate|].
  split; [assert (E : c_host en_c = Some (ascii_bytes "example.org"%string)) by (vm_compute; reflexivity); rewrite E;
          intros _ _; exists (ascii_bytes "example.org"%string); repeat split|].
  split; [assert (Ra : c_rng en_c = toy_rng 1) by (vm_compute; reflexivity); assert (Rb : c_rng en_s = toy_rng 2) by (vm_compute; reflexivity);
          rewrite Ra, Rb; apply toy_commutes|].
  split; [exact E7|]. split; [exact E5|].
  split; [intros [H|[H|[H|[H|[]]]]]; discriminate H|]. split; [exact E6|]. split; [exact E8|]. split; [exact E9 | exact E10].
Qed.

(* the other direction, with a record removed before the end of the handshake *)
Example c53_case2 : aead_sized ea /\ hmac_sized ea /\ hash_sized ea /\ created toy_client toy_c0 /\ created toy_server toy_s0 /\ own_random toy_s0 /\
  c_state ea_c = Connected /\ c_state ea_s = Connected /\ few ea_c /\ few ea_s /\
  host_fine ea (c_host ea_c) /\ dh_commutes ea (c_rng ea_c) (c_rng ea_s) /\
  (exists sd, In (SFin sd) (c_hs ea_c) /\ In (SFin sd) (c_hs ea_s)) /\
  unforgeable ea ea_s (c_log (run ea ea_more_s ea_s)) /\ ~ In OCloseS ea_more_c /\ few (run ea ea_more_c ea_c) /\
  readout ea (ea_ops_c ++ ea_more_c) toy_c0 = [x62] /\ written_since ea (ea_ops_s ++ ea_more_s) toy_s0 = [x62].
Proof.
  destruct ea_ok as (E1 & E2 & E3 & E4 & E5 & E6 & E7 & E8). destruct ea_more_ok as (F1 & F2 & F3 & F4).
  split; [exact ea_aead_sized|]. split; [exact P_Toy.toy_hmac_sized|]. split; [exact P_Toy.toy_hash_sized|].
  split; [exact toy_c0_created|]. split; [exact toy_s0_created|]. split; [exact toy_s0_random|].
  split; [exact E1|]. split; [exact E2|]. split; [exact F1|]. split; [exact F2|].
  split; [assert (E : c_host ea_c = Some (ascii_bytes "example.org"%string)) by (vm_compute; reflexivity); rewrite E;
          intros _ _; exists (ascii_bytes "example.org"%string); repeat split|].
  split; [assert (Ra : c_rng ea_c = toy_rng 1) by (vm_compute; reflexivity); assert (Rb : c_rng ea_s = toy_rng 2) by (vm_compute; reflexivity);
          rewrite Ra, Rb; apply toy_commutes|].
  split; [exact F3|]. split; [exact E4|].
  split; [intros [H|[H|[]]]; discriminate H|]. split; [exact E5|]. split; [exact E7 | exact F4].
Qed.
