(* C50 for handshakes with and without HelloRetryRequest. *)
From Verif Require Import Base Iana Crypto Config Ext Msg Cipher Kex Conn Toy S_Hist S_Conn S_Send S_Utils S_Keys S_Auth S_Server S_Codec S_Agree S_Match P_Match T_Alert T_Server T_Agree.

(* A client and a server that are connected and have the same handshake messages up to the server's Finished encrypt and decrypt with
   the keys of RFC 8446 for one shared secret and one transcript, and each
   reads with the key the other writes with; or else there are two different
   inputs, which are exhibited, with the same HMAC or the same digest, or a
   digest was taken for messages.  After a HelloRetryRequest only the latter
   are left: see c24_client_refuted. *)
Theorem c50_same_keys C gc gs c s : aead_sized C -> hmac_sized C -> hash_sized C ->
  g_side gc = Client -> reachable C gc c -> c_state c = Connected -> few c ->
  g_side gs = Server -> started C gs s -> c_state s = Connected -> few s ->
  Forall (Forall (fun b => 32 <= bN b <= 126)) (g_alpn gc) -> host_fine C (c_host c) -> dh_commutes C (c_rng c) (c_rng s) ->
  same_start (c_hs c) (c_hs s) ->
  (keys_meet c s /\ exists ms sd r suite h shared, c_hs c = ms ++ SFin sd :: r /\
    rfc_keys C Client suite h shared (rfc_transcript C h (ms ++ [SFin sd])) c /\
    rfc_keys C Server suite h shared (rfc_transcript C h (ms ++ [SFin sd])) s) \/
  finished_clash C c s \/ digest_mixup C gc c s.
Proof. exact (same_keys_all C gc gs c s). Qed.
Print Assumptions c50_same_keys.

(* the pair of c50_case, which meets all of the hypotheses, is of the first kind *)
Example c50_meet : keys_meet c43_c c17_s.
Proof.
  assert (E : match c_cipher c43_c, c_cipher c17_s with
    | Some x, Some y => (cs_suite x, d_key (cs_w x), d_iv (cs_w x), d_key (cs_r x), d_iv (cs_r x)) = (cs_suite y, d_key (cs_r y), d_iv (cs_r y), d_key (cs_w y), d_iv (cs_w y))
        /\ (if d_key (cs_w x) then True else False) /\ (if d_key (cs_w y) then True else False)
    | _, _ => False end) by (vm_compute; auto).
  unfold keys_meet. destruct (c_cipher c43_c) as [x|], (c_cipher c17_s) as [y|]; try contradiction. exists x, y.
  destruct E as (E & A & B). injection E; intros. repeat split; try congruence; [intro Z; rewrite Z in A; exact A | intro Z; rewrite Z in B; exact B].
Qed.
