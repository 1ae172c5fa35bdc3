(* C76 *)
From Verif Require Import Base Iana Crypto Config Ext Msg Cipher Kex Conn S_Hist S_Conn S_Send S_Utils S_Keys S_Auth S_Server S_Codec S_Agree S_Terms S_Down
  Toy P_Toy P_Agree P_AgreeToy P_Down P_Down2 P_Down3 T_Alert T_Server T_Agree.

(* Two connected ends that saw the same messages up to the server's Finished,
   without a retry, negotiated the best terms that their configurations allow,
   and both say so. *)
Theorem c76_same_messages C gc gs c s : aead_sized C -> hmac_sized C -> hash_sized C ->
  g_side gc = Client -> reachable C gc c -> c_state c = Connected -> few c ->
  g_side gs = Server -> started C gs s -> c_state s = Connected -> few s ->
  Forall (Forall (fun b => 32 <= bN b <= 126)) (g_alpn gc) -> host_fine C (c_host c) ->
  same_start (c_hs c) (c_hs s) -> forallb (fun m => negb (is_retry m)) (c_hs c) = true ->
  best_terms C gc gs c s.
Proof. exact (fun As Hs Hh => best C As Hs Hh gc gs c s). Qed.
Print Assumptions c76_same_messages.

(* Whatever the network did to the messages: a client that accepted the
   Finished of a server negotiated the best terms with it, unless the two
   computed the same Finished from different inputs (C51). *)
Theorem c76_no_downgrade C gc gs c s sd : aead_sized C -> hmac_sized C -> hash_sized C ->
  g_side gc = Client -> reachable C gc c -> c_state c = Connected -> few c ->
  g_side gs = Server -> started C gs s -> c_state s = Connected -> few s ->
  Forall (Forall (fun b => 32 <= bN b <= 126)) (g_alpn gc) -> host_fine C (c_host c) ->
  In (SFin sd) (c_hs c) -> In (SFin sd) (c_hs s) ->
  best_terms C gc gs c s \/ finished_clash C c s \/ digest_mixup C gc c s.
Proof. exact (fun As Hs Hh => no_downgrade C As Hs Hh gc gs c s sd). Qed.
Print Assumptions c76_no_downgrade.

(* and it holds the certificate or the key of that server *)
Theorem c76_right_peer C gc gs c s sd : aead_sized C -> hmac_sized C -> hash_sized C ->
  g_side gc = Client -> reachable C gc c -> c_state c = Connected -> few c ->
  g_side gs = Server -> started C gs s -> c_state s = Connected -> few s ->
  Forall (Forall (fun b => 32 <= bN b <= 126)) (g_alpn gc) -> host_fine C (c_host c) -> loadable C gs ->
  In (SFin sd) (c_hs c) -> In (SFin sd) (c_hs s) ->
  right_peer C gc gs c \/ finished_clash C c s \/ digest_mixup C gc c s.
Proof. exact (fun As Hs Hh => right_or_clash C As Hs Hh gc gs c s sd). Qed.
Print Assumptions c76_right_peer.

Example c76_case : best_terms toy toy_client toy_server c43_c c17_s /\
  tells n_alpn c43_c = Some (Some (ascii_bytes "http/1.1"%string)).
Proof.
  destruct c50_case as (A1 & A2 & A3 & A4 & A5 & A6 & A7 & A8 & A9 & A10 & A11 & A12 & A13 & _ & A15 & A16).
  split; [exact (c76_same_messages toy toy_client toy_server c43_c c17_s A1 A2 A3 A4 A5 A6 A7 A8 A9 A10 A11 A12 A13 A15 A16)|].
  vm_compute. reflexivity.
Qed.
Example c76_peer_case : loadable toy toy_server /\ exists sd, In (SFin sd) (c_hs c43_c) /\ In (SFin sd) (c_hs c17_s).
Proof.
  split; [|exact c51_case]. split; [intros chain E; injection E; intros <-; repeat constructor|].
  intros key E. discriminate E.
Qed.
