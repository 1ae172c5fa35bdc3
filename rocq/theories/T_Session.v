(* C49 and C53 for a caller that heeds the exceptions, and C55 *)
From Verif Require Import Base Iana Crypto Config Ext Msg Cipher Conn Wrapper S_Hist S_Conn S_Send S_Nonce S_Alert S_Utils S_Keys S_Auth S_Server S_Codec S_Deliver S_Agree S_Integrity S_Entire S_Heed S_Session
  Toy P_Toy P_IntegToy P_AgreeToy P_EntireToy P_Heed P_Heed2 P_Session P_HeedToy.

(* C49, without its restrictions, for a caller that does not call receive_data
   again once it has raised: all it obtains, and all that waits to be read, is
   the beginning of what was written. *)
Theorem c49_heeded : forall C ga gb a b opsA opsB, aead_sized C -> reachable C ga a -> reachable C gb b ->
  keyed a b -> room a -> established (c_state a) = true -> established (c_state b) = true -> c_app b = [] ->
  unforgeable C a (c_log (run C opsA a)) -> heeded C opsB b ->
  prefix (readout C opsB b ++ c_app (run C opsB b)) (written C opsA a).
Proof. exact integrity_heed. Qed.
Print Assumptions c49_heeded.

(* the reader has closed its sending end; a forged record raises *)
Definition c49_stopped : list op := [OCloseS; ORecv (st_record 0 x61); ORecv st_forged; ORead].
Example c49_heeded_case : aead_sized strict /\ reachable strict toy_client st_a /\ reachable strict toy_server st_b /\
  keyed st_a st_b /\ room st_a /\ established (c_state st_a) = true /\ established (c_state st_b) = true /\ c_app st_b = [] /\
  unforgeable strict st_a (c_log (run strict st_ops st_a)) /\ heeded strict c49_stopped st_b /\
  beqb (readout strict c49_stopped st_b) [x61] = true.
Proof.
  destruct st_ok as (Q & R & Ea & Cs & U). split; [exact strict_aead_sized|]. split; [exact st_a_reachable|]. split; [exact st_b_reachable|].
  split; [apply Q|]. split; [exact R|]. split; [exact Ea|]. split; [apply Q|]. split; [apply Q|]. split; [exact U|].
  split; [apply heededb_ok|]; vm_compute; reflexivity.
Qed.

(* C53 for such a caller: from the creation of the connections on *)
Theorem c53_heeded : forall C ga gb a0 b0 opsA opsB moreA moreB, aead_sized C -> created ga a0 -> created gb b0 ->
  c_state (run C opsA a0) = Connected -> c_state (run C opsB b0) = Connected -> key_shared (run C opsA a0) (run C opsB b0) ->
  unforgeable C (run C opsA a0) (c_log (run C moreA (run C opsA a0))) -> heeded C (opsB ++ moreB) b0 ->
  prefix (readout C (opsB ++ moreB) b0 ++ c_app (run C moreB (run C opsB b0))) (written_since C (opsA ++ moreA) a0).
Proof. exact (fun C ga gb a0 b0 opsA opsB moreA moreB As => entire_heed C As ga gb a0 b0 opsA opsB moreA moreB). Qed.
Print Assumptions c53_heeded.

Theorem c53_heeded_server : forall C gc gs c0 s0 opsC opsS moreC moreS sd, aead_sized C -> hmac_sized C -> hash_sized C ->
  g_side gc = Client -> g_side gs = Server -> created gc c0 -> created gs s0 -> own_random s0 ->
  c_state (run C opsC c0) = Connected -> c_state (run C opsS s0) = Connected -> few (run C opsC c0) -> few (run C opsS s0) ->
  Forall (Forall (fun b => 32 <= bN b <= 126)) (g_alpn gc) -> host_fine C (c_host (run C opsC c0)) ->
  dh_commutes C (c_rng (run C opsC c0)) (c_rng (run C opsS s0)) ->
  In (SFin sd) (c_hs (run C opsC c0)) -> In (SFin sd) (c_hs (run C opsS s0)) ->
  unforgeable C (run C opsC c0) (c_log (run C moreC (run C opsC c0))) -> heeded C (opsS ++ moreS) s0 ->
  prefix (readout C (opsS ++ moreS) s0 ++ c_app (run C moreS (run C opsS s0))) (written C (opsC ++ moreC) c0) \/
  finished_clash C (run C opsC c0) (run C opsS s0) \/ digest_mixup C gc (run C opsC c0) (run C opsS s0).
Proof. exact (fun C gc gs c0 s0 opsC opsS moreC moreS sd As Hs Hh => heed_server C As Hs Hh gc gs c0 s0 opsC opsS moreC moreS sd). Qed.
Print Assumptions c53_heeded_server.

Theorem c53_heeded_client : forall C gc gs c0 s0 opsC opsS moreC moreS sd, aead_sized C -> hmac_sized C -> hash_sized C ->
  g_side gc = Client -> g_side gs = Server -> created gc c0 -> created gs s0 -> own_random s0 ->
  c_state (run C opsC c0) = Connected -> c_state (run C opsS s0) = Connected -> few (run C opsC c0) -> few (run C opsS s0) ->
  Forall (Forall (fun b => 32 <= bN b <= 126)) (g_alpn gc) -> host_fine C (c_host (run C opsC c0)) ->
  dh_commutes C (c_rng (run C opsC c0)) (c_rng (run C opsS s0)) ->
  In (SFin sd) (c_hs (run C opsC c0)) -> In (SFin sd) (c_hs (run C opsS s0)) ->
  unforgeable C (run C opsS s0) (c_log (run C moreS (run C opsS s0))) -> heeded C (opsC ++ moreC) c0 ->
  prefix (readout C (opsC ++ moreC) c0 ++ c_app (run C moreC (run C opsC c0))) (written_since C (opsS ++ moreS) s0) \/
  finished_clash C (run C opsC c0) (run C opsS s0) \/ digest_mixup C gc (run C opsC c0) (run C opsS s0).
Proof. exact (fun C gc gs c0 s0 opsC opsS moreC moreS sd As Hs Hh => heed_client C As Hs Hh gc gs c0 s0 opsC opsS moreC moreS sd). Qed.
Print Assumptions c53_heeded_client.

(* the other hypotheses are those of c53_case *)
Example c53_heeded_case : heeded strict (en_ops_s ++ hd_more_s) toy_s0 /\
  raised (fst (receive_data strict (st_record 1 x62) (run strict (firstn 3 hd_more_s) en_s))) = true /\
  readout strict (en_ops_s ++ hd_more_s) toy_s0 = [x61; x62] /\ written strict (en_ops_c ++ en_more_c) toy_c0 = [x61; x62].
Proof. destruct hd_ok as (A & B & D). split; [exact A|]. split; [exact B|]. split; [exact D|]. apply en_ok. Qed.

(* C55.  Two sockets wrapped by the library.  Both did their handshake and have
   the same server Finished; after that the methods may be called in any order.
   What the calls of read return on one side is the beginning of what write was
   given on the other, whatever the network does, as long as nobody reads again
   after a read that raised. *)
Theorem c55_server : forall C gc gs c0 s0 kc ks lc ls sd, aead_sized C -> hmac_sized C -> hash_sized C ->
  g_side gc = Client -> g_side gs = Server -> created gc c0 -> created gs s0 -> own_random s0 ->
  let wc := snd (call C CHandshake (c0, kc)) in let ws := snd (call C CHandshake (s0, ks)) in
  c_state (fst wc) = Connected -> c_state (fst ws) = Connected -> few (fst wc) -> few (fst ws) ->
  Forall (Forall (fun b => 32 <= bN b <= 126)) (g_alpn gc) -> host_fine C (c_host (fst wc)) ->
  dh_commutes C (c_rng (fst wc)) (c_rng (fst ws)) ->
  In (SFin sd) (c_hs (fst wc)) -> In (SFin sd) (c_hs (fst ws)) ->
  unforgeable C (fst wc) (c_log (fst (session C lc wc))) ->
  fst (call C CHandshake (s0, ks)) = Ok [] -> prudent C ls ws ->
  prefix (reads C ls ws) (writes C lc wc) \/ finished_clash C (fst wc) (fst ws) \/ digest_mixup C gc (fst wc) (fst ws).
Proof. exact (fun C gc gs c0 s0 kc ks lc ls sd As Hs Hh => prudent_server C As Hs Hh gc gs c0 s0 kc ks lc ls sd). Qed.
Print Assumptions c55_server.

Theorem c55_client : forall C gc gs c0 s0 kc ks lc ls sd, aead_sized C -> hmac_sized C -> hash_sized C ->
  g_side gc = Client -> g_side gs = Server -> created gc c0 -> created gs s0 -> own_random s0 ->
  let wc := snd (call C CHandshake (c0, kc)) in let ws := snd (call C CHandshake (s0, ks)) in
  c_state (fst wc) = Connected -> c_state (fst ws) = Connected -> few (fst wc) -> few (fst ws) ->
  Forall (Forall (fun b => 32 <= bN b <= 126)) (g_alpn gc) -> host_fine C (c_host (fst wc)) ->
  dh_commutes C (c_rng (fst wc)) (c_rng (fst ws)) ->
  In (SFin sd) (c_hs (fst wc)) -> In (SFin sd) (c_hs (fst ws)) ->
  unforgeable C (fst ws) (c_log (fst (session C ls ws))) ->
  fst (call C CHandshake (c0, kc)) = Ok [] -> prudent C lc wc ->
  prefix (reads C lc wc) (writes C ls ws) \/ finished_clash C (fst wc) (fst ws) \/ digest_mixup C gc (fst wc) (fst ws).
Proof. exact (fun C gc gs c0 s0 kc ks lc ls sd As Hs Hh => prudent_client C As Hs Hh gc gs c0 s0 kc ks lc ls sd). Qed.
Print Assumptions c55_client.

(* the client writes twice; the server has closed its sending end and reads
   three times, the last record being a replay that raises *)
Example c55_case : aead_sized strict /\ hmac_sized strict /\ hash_sized strict /\
  g_side toy_client = Client /\ g_side toy_server = Server /\ created toy_client toy_c0 /\ created toy_server toy_s0 /\ own_random toy_s0 /\
  c_state (fst ws_c) = Connected /\ c_state (fst ws_s) = Connected /\ few (fst ws_c) /\ few (fst ws_s) /\
  Forall (Forall (fun b => 32 <= bN b <= 126)) (g_alpn toy_client) /\ host_fine strict (c_host (fst ws_c)) /\
  dh_commutes strict (c_rng (fst ws_c)) (c_rng (fst ws_s)) /\
  (exists sd, In (SFin sd) (c_hs (fst ws_c)) /\ In (SFin sd) (c_hs (fst ws_s))) /\
  unforgeable strict (fst ws_c) (c_log (fst (session strict ws_lc ws_c))) /\
  fst (call strict CHandshake (toy_s0, ws_ks)) = Ok [] /\ prudent strict ws_ls ws_s /\
  reads strict ws_ls ws_s = [x61; x62] /\ writes strict ws_lc ws_c = [x61; x62] /\
  raised (fst (call strict CRead (session strict (firstn 3 ws_ls) ws_s))) = true.
Proof.
  destruct ws_ok as (E1 & E2 & E3 & E4 & E5 & E6 & E7).
  split; [exact strict_aead_sized|]. split; [exact P_Toy.toy_hmac_sized|]. split; [exact P_Toy.toy_hash_sized|]. split; [reflexivity|]. split; [reflexivity|].
  split; [exact toy_c0_created|]. split; [exact toy_s0_created|]. split; [exact toy_s0_random|].
  split; [exact E1|]. split; [exact E2|]. split; [exact E3|]. split; [exact E4|].
  split; [repeat constructor; vm_compute; discriminate|].
  split; [assert (E : c_host (fst ws_c) = Some (ascii_bytes "example.org"%string)) by (vm_compute; reflexivity); rewrite E;
          intros _ _; exists (ascii_bytes "example.org"%string); repeat split|].
  split; [assert (Ra : c_rng (fst ws_c) = toy_rng 1) by (vm_compute; reflexivity); assert (Rb : c_rng (fst ws_s) = toy_rng 2) by (vm_compute; reflexivity);
          rewrite Ra, Rb; apply toy_commutes|].
  split; [exact E6|]. split; [exact E5 | exact E7].
Qed.

(* the server writes and closes; its record is replayed *)
Example c55_case2 : c_state (fst wr_c) = Connected /\ c_state (fst wr_s) = Connected /\ few (fst wr_c) /\ few (fst wr_s) /\
  host_fine ea (c_host (fst wr_c)) /\ dh_commutes ea (c_rng (fst wr_c)) (c_rng (fst wr_s)) /\
  (exists sd, In (SFin sd) (c_hs (fst wr_c)) /\ In (SFin sd) (c_hs (fst wr_s))) /\
  unforgeable ea (fst wr_s) (c_log (fst (session ea wr_ls wr_s))) /\
  fst (call ea CHandshake (toy_c0, wr_kc)) = Ok [] /\ prudent ea wr_lc wr_c /\
  reads ea wr_lc wr_c = [x62] /\ writes ea wr_ls wr_s = [x62].
Proof.
  destruct wr_ok as (E1 & E2 & E3 & E4 & E5 & E6 & E7).
  split; [exact E1|]. split; [exact E2|]. split; [exact E3|]. split; [exact E4|].
  split; [assert (E : c_host (fst wr_c) = Some (ascii_bytes "example.org"%string)) by (vm_compute; reflexivity); rewrite E;
          intros _ _; exists (ascii_bytes "example.org"%string); repeat split|].
  split; [assert (Ra : c_rng (fst wr_c) = toy_rng 1) by (vm_compute; reflexivity); assert (Rb : c_rng (fst wr_s) = toy_rng 2) by (vm_compute; reflexivity);
          rewrite Ra, Rb; apply toy_commutes|].
  split; [exact E6|]. split; [exact E5 | exact E7].
Qed.

(* A user that reads again after an exception.  Full statement: as c55_server,
   without [prudent].  Missing: they must not have closed the socket nor used up
   the write key. *)
Theorem c55_again_partial : forall C gc gs c0 s0 kc ks lc ls sd, aead_sized C -> hmac_sized C -> hash_sized C ->
  g_side gc = Client -> g_side gs = Server -> created gc c0 -> created gs s0 -> own_random s0 ->
  let wc := snd (call C CHandshake (c0, kc)) in let ws := snd (call C CHandshake (s0, ks)) in
  c_state (fst wc) = Connected -> c_state (fst ws) = Connected -> few (fst wc) -> few (fst ws) ->
  Forall (Forall (fun b => 32 <= bN b <= 126)) (g_alpn gc) -> host_fine C (c_host (fst wc)) ->
  dh_commutes C (c_rng (fst wc)) (c_rng (fst ws)) ->
  In (SFin sd) (c_hs (fst wc)) -> In (SFin sd) (c_hs (fst ws)) ->
  unforgeable C (fst wc) (c_log (fst (session C lc wc))) -> ~ In CClose ls -> few (fst (session C ls ws)) ->
  prefix (reads C ls ws) (writes C lc wc) \/ finished_clash C (fst wc) (fst ws) \/ digest_mixup C gc (fst wc) (fst ws).
Proof. exact (fun C gc gs c0 s0 kc ks lc ls sd As Hs Hh => wrapped_server C As Hs Hh gc gs c0 s0 kc ks lc ls sd). Qed.
Print Assumptions c55_again_partial.

(* the socket was closed; a forged record takes the place of "a", the read that
   meets it raises, and the next read returns "b" *)
Theorem c55_again_refuted : exists C gc gs c0 s0 kc ks lc ls, aead_sized C /\ created gc c0 /\ created gs s0 /\
  let wc := snd (call C CHandshake (c0, kc)) in let ws := snd (call C CHandshake (s0, ks)) in
  c_state (fst wc) = Connected /\ c_state (fst ws) = Connected /\ key_shared (fst wc) (fst ws) /\
  unforgeable C (fst wc) (c_log (fst (session C lc wc))) /\ fst (call C CHandshake (s0, ks)) = Ok [] /\ few (fst (session C ls ws)) /\
  ~ prefix (reads C ls ws) (writes C lc wc).
Proof.
  exists strict, toy_client, toy_server, toy_c0, toy_s0, ws_kc, wg_ks, ws_lc, wg_ls. cbv zeta.
  pose proof ws_ok as E. pose proof wg_ok as F. unfold ws_c, ws_s in E. unfold ws_c, wg_s in F.
  destruct E as (E1 & _ & _ & _ & E5 & _ & _ & _ & _ & E10 & _). destruct F as (F1 & F2 & F3 & F4 & F5 & F6).
  split; [exact strict_aead_sized|]. split; [exact toy_c0_created|]. split; [exact toy_s0_created|].
  split; [exact E1|]. split; [exact F1|]. split; [exact F3|]. split; [exact E5|]. split; [exact F4|]. split; [exact F5|].
  rewrite E10, F6. intros (r & H). discriminate H.
Qed.
Print Assumptions c55_again_refuted.
