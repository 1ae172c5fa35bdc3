(* C66, C67 *)
From Verif Require Import Base P_Base Iana Crypto Config Serial Ext Msg Cipher Kex Conn S_Hist S_Conn S_Auth S_Hello S_Split P_Rec S_Pack S_Send S_Nonce P_Hello P_Answer2 Toy P_Toy P_PackToy P_HelloToy.

(* C66.  Full statement: a ServerHello or a HelloRetryRequest that contradicts
   the ClientHello it answers is refused.  Missing, see the refutations: the
   session id, a retry that changes nothing, the version of a retry. *)
Theorem c66_accepted_partial : forall C g c first shares chash sd hrr random sid suite exts c', reachable C g c -> g_side g = Client ->
  c_state c = ClientWaitServerHello first shares chash -> says C None sd (HServerHello hrr random sid suite exts) ->
  handle_content C CT_HANDSHAKE sd c = (Ok tt, c') ->
  exists d u suites hexts groups group share, last_hello (c_hs c) d /\ ser_content C (KHandshake (HClientHello u [] suites hexts)) = Ok d /\
    ext_get 10 hexts = Some (ESupportedGroups groups) /\ ext_get 51 hexts = Some (EKeyShareReq [(group, share)]) /\
    In suite suites /\
    if hrr then exists gr, ext_get 51 exts = Some (EKeyShareRetry gr) /\ In gr groups
    else ext_get 43 exts = Some (ESupVersionsResp 0x0304) /\ exists pub, ext_get 51 exts = Some (EKeyShareResp group pub).
Proof. exact accepted. Qed.
Print Assumptions c66_accepted_partial.
(* the ServerHello of the toy server, and a retry *)
Example c66_case : reachable toy toy_client he_c /\ (exists shares chash, c_state he_c = ClientWaitServerHello true shares chash) /\
  says toy None he_retry (HServerHello true hrr_random [] 4867 [ESupVersionsResp 772; EKeyShareRetry secp256r1]) /\
  fst (handle_content toy CT_HANDSHAKE he_retry he_c) = Ok tt /\ fst (handle_content toy CT_HANDSHAKE he_sh he_c) = Ok tt.
Proof. split; [exact he_reachable|]. split; [do 2 eexists; vm_compute; reflexivity|]. split; [vm_compute; reflexivity|]. split; vm_compute; reflexivity. Qed.
(* another session id than that of the ClientHello *)
Theorem c66_session_refuted : exists C g c d u sid suites hexts sd random sid' suite exts c', reachable C g c /\
  (exists shares chash, c_state c = ClientWaitServerHello true shares chash) /\ c_hs c = [(Client, 1, d)] /\
  says C None d (HClientHello u sid suites hexts) /\ says C None sd (HServerHello false random sid' suite exts) /\ sid' <> sid /\
  handle_content C CT_HANDSHAKE sd c = (Ok tt, c') /\ c_state c' = ClientWaitEncryptedExtensions.
Proof.
  exists toy, toy_client, he_c, he_ch, (an_random he_ch), [], toy_suites, (an_offer he_ch), he_sid, (btake 32 (bdrop 6 he_sh)), [xaa], 4867, (he_said he_sid),
    (snd (handle_content toy CT_HANDSHAKE he_sid he_c)).
  split; [exact he_reachable|]. split; [do 2 eexists; vm_compute; reflexivity|]. split; [vm_compute; reflexivity|]. split; [vm_compute; reflexivity|].
  split; [vm_compute; reflexivity|]. split; [discriminate|]. split; [apply fst_ok; vm_compute; reflexivity | vm_compute; reflexivity].
Qed.
Print Assumptions c66_session_refuted.
(* a retry for the group of the key share that was sent *)
Theorem c66_same_group_refuted : exists C g c d u suites hexts group share sd suite exts c', reachable C g c /\ c_hs c = [(Client, 1, d)] /\
  says C None d (HClientHello u [] suites hexts) /\ ext_get 51 hexts = Some (EKeyShareReq [(group, share)]) /\
  says C None sd (HServerHello true retry_random [] suite exts) /\ ext_get 51 exts = Some (EKeyShareRetry group) /\ ext_get 44 exts = None /\
  handle_content C CT_HANDSHAKE sd c = (Ok tt, c') /\ length (c_hs c') = 3%nat.
Proof.
  exists toy, toy_client, he_c, he_ch, (an_random he_ch), toy_suites, (an_offer he_ch), x25519.
  exists (match ext_get 51 (an_offer he_ch) with Some (EKeyShareReq [(_, s)]) => s | _ => [] end), he_same, 4867, [ESupVersionsResp 772; EKeyShareRetry x25519],
    (snd (handle_content toy CT_HANDSHAKE he_same he_c)).
  split; [exact he_reachable|]. split; [vm_compute; reflexivity|]. split; [vm_compute; reflexivity|]. split; [vm_compute; reflexivity|]. split; [vm_compute; reflexivity|].
  split; [vm_compute; reflexivity|]. split; [vm_compute; reflexivity|]. split; [apply fst_ok; vm_compute; reflexivity | vm_compute; reflexivity].
Qed.
Print Assumptions c66_same_group_refuted.
(* a retry that does not tell the version *)
Theorem c66_version_refuted : exists C g c sd suite exts c', reachable C g c /\ c_state c <> Failed /\
  says C None sd (HServerHello true retry_random [] suite exts) /\ ext_get 43 exts = None /\
  handle_content C CT_HANDSHAKE sd c = (Ok tt, c') /\ length (c_hs c') = 3%nat.
Proof.
  exists toy, toy_client, he_c, he_bare, 4867, [EKeyShareRetry secp256r1], (snd (handle_content toy CT_HANDSHAKE he_bare he_c)).
  split; [exact he_reachable|]. split; [vm_compute; discriminate|]. split; [vm_compute; reflexivity|]. split; [vm_compute; reflexivity|].
  split; [apply fst_ok; vm_compute; reflexivity | vm_compute; reflexivity].
Qed.
Print Assumptions c66_version_refuted.

(* C67.  Full statement: every ClientHello that a client sends is well formed,
   and a second one only differs where it may. *)
Theorem c67_wellformed_partial : forall C g c, reachable C g c -> g_side g = Client ->
  exists u, c_cunique c = Some u /\ forall d, In (Client, 1, d) (c_hs c) -> exists h, ser_content C (KHandshake h) = Ok d /\ wellformed g u h.
Proof. exact hellos_good. Qed.
Print Assumptions c67_wellformed_partial.
Example c67_case : reachable toy toy_client (he_after he_retry) /\ In (Client, 1, he_ch) (c_hs (he_after he_retry)) /\
  In (Client, 1, he_second he_retry) (c_hs (he_after he_retry)) /\ beqb he_ch (he_second he_retry) = false.
Proof. split; [apply he_after_reachable|]. split; [vm_compute; left; reflexivity|]. split; [vm_compute; right; right; left; reflexivity | vm_compute; reflexivity]. Qed.
Theorem c67_second_refuted : exists C g c d m d' h h', reachable C g c /\ g_side g = Client /\
  c_hs c = [(Client, 1, d); (Server, 2, m); (Client, 1, d')] /\
  (exists suite exts, says C None m (HServerHello true retry_random [] suite exts)) /\
  says C None d h /\ says C None d' h' /\ ~ same_hello h h'.
Proof.
  exists toy, toy_client, (he_after he_retry), he_ch, he_retry, (he_second he_retry), (HClientHello (an_random he_ch) [] toy_suites (an_offer he_ch)),
    (HClientHello (an_random he_ch) [] [4867] (an_offer (he_second he_retry))).
  split; [apply he_after_reachable|]. split; [reflexivity|]. split; [vm_compute; reflexivity|].
  split; [exists 4867, [ESupVersionsResp 772; EKeyShareRetry secp256r1]; vm_compute; reflexivity|].
  split; [vm_compute; reflexivity|]. split; [vm_compute; reflexivity|]. apply other_suites. discriminate.
Qed.
Print Assumptions c67_second_refuted.
