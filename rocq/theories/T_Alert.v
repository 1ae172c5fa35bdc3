(* C10, C43, C44 *)
From Verif Require Import Base Iana Crypto Config Msg Cipher Conn S_Hist S_Conn S_Send S_Nonce S_Alert P_Alert P_Alert2 Toy P_Toy.

(* Full statement: whatever error processing raises, in whatever state that may
   send, the connection ends failed, with one alert emitted.  Missing: when the
   alert itself cannot be encrypted, because the suite has no usage limit (the
   two CCM suites) or because the limit is reached. *)
Theorem c10_alert_partial : forall C g c d e c1,
  aead_sized C -> reachable C g c -> can_receive (c_state c) = true -> d <> [] ->
  raises C (cset_in (c_in c ++ d) c) e c1 -> can_send (c_state c1) = true -> room c1 ->
  exists c', receive_data C d c = (Err e, c') /\ c_state c' = Failed /\
    exists r, alert_record C (alert_for e) r /\ c_out c' = c_out c1 ++ r.
Proof. exact receive_alert. Qed.
Print Assumptions c10_alert_partial.
(* there is no other way for receive_data to raise, but the rekeying check made
   when all the input was processed *)
Theorem c10_only : forall C c d e c', can_receive (c_state c) = true -> d <> [] ->
  receive_data C d c = (Err e, c') ->
  (exists e1 c1, raises C (cset_in (c_in c ++ d) c) e1 c1 /\
     (e = e1 \/ fail C (Some (alert_for e1)) c1 = (Err e, c'))) \/
  loops C (cset_in (c_in c ++ d) c) (Ok tt, c').
Proof. exact receive_error. Qed.
Print Assumptions c10_only.

Definition ccm_client : config :=
  mkConfig Client [TLS_AES_128_CCM_SHA256] [x25519] [ed25519] (Some 1) None 5 [] None None None 16384 true [] [].
Definition ccm_server : config :=
  mkConfig Server [TLS_AES_128_CCM_SHA256] [x25519] [ed25519] None None 5 []
    (Some toy_cert) None (Some [toy_cert]) 16384 true [] [].
Definition c10_c0 := get_ok (new_conn false ccm_client None false (toy_rng 1 100) (toy_rng 1)).
Definition c10_s0 := get_ok (new_conn false ccm_server None false (toy_rng 2 100) (toy_rng 2)).
Definition c10_hello := c_out (run toy [OInit] c10_c0).
(* a server and a client that only know a CCM suite: installing the keys raises
   TypeError, so does encrypting the alert *)
Theorem c10_alert_refuted : exists C g c d e c1 c',
  aead_sized C /\ reachable C g c /\ can_receive (c_state c) = true /\ d <> [] /\
  raises C (cset_in (c_in c ++ d) c) e c1 /\ can_send (c_state c1) = true /\
  receive_data C d c = (Err e, c') /\ c_state c' <> Failed /\ c_out c' = c_out c1.
Proof.
  set (c := run toy [OInit] c10_s0). set (c1 := cset_in (c_in c ++ c10_hello) c).
  exists toy, ccm_server, c, c10_hello, XType, (snd (receive_one toy c1)), (snd (receive_data toy c10_hello c)).
  split; [exact toy_aead_sized|]. split.
  { exists c10_s0, [OInit]. split; [|reflexivity].
    split; [vm_compute; reflexivity|]. split; [cbn; tauto|].
    exists false, None, false, (toy_rng 2 100), (toy_rng 2). vm_compute. reflexivity. }
  split; [vm_compute; reflexivity|]. split; [vm_compute; discriminate|].
  split; [apply raises_fst; vm_compute; reflexivity|].
  split; [vm_compute; reflexivity|].
  split; [apply receive_fst; vm_compute; reflexivity|]. split; [vm_compute; discriminate | vm_compute; reflexivity].
Qed.
Print Assumptions c10_alert_refuted.

(* an unencrypted record while waiting for the ServerHello; a forged record once
   connected *)
Definition c10_garbage : bytes := [x17; x03; x03; x00; x01; x00].
Example c10_case : let c := run toy [OInit; OFlush] toy_c0 in
  let c1 := cset_in (c_in c ++ c10_garbage) c in
  can_receive (c_state c) = true /\
  raises toy c1 (XAlert UNEXPECTED_MESSAGE) (snd (receive_one toy c1)) /\
  can_send (c_state (snd (receive_one toy c1))) = true /\ room (snd (receive_one toy c1)) /\
  c_out (snd (receive_data toy c10_garbage c)) = [x15; x03; x03; x00; x02; x02; x0a].
Proof.
  split; [vm_compute; reflexivity|]. split; [apply raises_fst; vm_compute; reflexivity|].
  split; [vm_compute; reflexivity|]. split; [|vm_compute; reflexivity].
  intros x H. vm_compute in H. discriminate H.
Qed.
Definition c10_forged : bytes := record CT_APPDATA (repeat x00 40).
Example c10_case2 : let c := run toy [OInit; ORecv (c_out toy_s2); OFlush] toy_c0 in
  let c1 := cset_in (c_in c ++ c10_forged) c in
  raises toy c1 (XAlert DECRYPT_ERROR) (snd (receive_one toy c1)) /\
  room (snd (receive_one toy c1)) /\ enc_on (snd (receive_one toy c1)) = true /\
  c_state (snd (receive_data toy c10_forged c)) = Failed.
Proof.
  split; [apply raises_fst; vm_compute; reflexivity|]. split; [|split; vm_compute; reflexivity].
  intros x H _. vm_compute in H. injection H; intros <-. exists (2 ^ 64). split; [cbn; tauto|].
  intros q Hq. cbn in Hq. injection Hq; intros <-. reflexivity.
Qed.

(* C43.  Full statement: with bad_record_mac.  The code answers decrypt_error. *)
Theorem c43_forged_partial : forall C g c x p rest, aead_sized C -> reachable C g c -> idle c ->
  can_receive (c_state c) = true -> can_send (c_state c) = true ->
  c_cipher c = Some x -> dec_on c = true -> room c -> room_r c -> blen p <= max_frag c + 256 ->
  (forall k n, d_key (cs_r x) = Some k -> rfc_nonce (cs_r x) = Some n ->
     cr_open C (cs_suite x) k n p (Nb CT_APPDATA :: x03 :: x03 :: be_bytes 2 (blen p)) = None) ->
  exists c', receive_data C (record CT_APPDATA p ++ rest) c = (Err (XAlert DECRYPT_ERROR), c') /\
    c_state c' = Failed /\ c_app c' = c_app c /\
    exists r, alert_record C DECRYPT_ERROR r /\ c_out c' = c_out c ++ r.
Proof. exact forged. Qed.
Print Assumptions c43_forged_partial.
Definition c43_c := run toy [OInit; ORecv (c_out toy_s2); OFlush] toy_c0.
Theorem c43_forged_refuted : exists C g c p e c', aead_sized C /\ reachable C g c /\ idle c /\
  c_state c = Connected /\ blen p <= max_frag c /\
  (forall suite k n aad, cr_open C suite k n p aad = None) /\
  receive_data C (record CT_APPDATA p) c = (Err e, c') /\ alert_for e <> BAD_RECORD_MAC.
Proof.
  exists toy, toy_client, c43_c, [], (XAlert DECRYPT_ERROR), (snd (receive_data toy (record CT_APPDATA []) c43_c)).
  split; [exact toy_aead_sized|]. split; [exists toy_c0; eexists; split; [exact toy_c0_created | reflexivity]|].
  split; [split; vm_compute; reflexivity|]. split; [vm_compute; reflexivity|]. split; [vm_compute; discriminate|].
  split. { intros suite k n aad. cbn. unfold toy_open. change (blen []) with 0. destruct (suite =? _); reflexivity. }
  split; [apply receive_fst; vm_compute; reflexivity | discriminate].
Qed.
Print Assumptions c43_forged_refuted.
(* the hypotheses of the first theorem hold of a connected client *)
Example c43_case : idle c43_c /\ dec_on c43_c = true /\ room c43_c /\ room_r c43_c /\
  can_receive (c_state c43_c) = true /\ can_send (c_state c43_c) = true.
Proof.
  split; [split; vm_compute; reflexivity|]. split; [vm_compute; reflexivity|].
  split; [|split; [|split; vm_compute; reflexivity]]; intros x H _; vm_compute in H; injection H; intros <-;
    exists (2 ^ 64); (split; [cbn; tauto|]); intros q Hq; cbn in Hq; injection Hq; intros <-; reflexivity.
Qed.

(* C44.  Full statement: the connection fails and emits nothing.  It fails, but
   sends the alert back. *)
Theorem c44_fatal_partial : forall C g c code, aead_sized C -> reachable C g c -> idle c ->
  can_receive (c_state c) = true -> can_send (c_state c) = true -> dec_on c = false -> room c ->
  memN code alert_descriptions = true -> code <> CLOSE_NOTIFY -> code <> USER_CANCELED ->
  exists c', receive_data C (record CT_ALERT [x02; Nb code]) c = (Err (XAlert code), c') /\ c_state c' = Failed /\
    exists r, alert_record C code r /\ c_out c' = c_out c ++ r.
Proof. exact echoed. Qed.
Print Assumptions c44_fatal_partial.
(* the same for an alert that comes encrypted *)
Theorem c44_sealed_partial : forall C g c x p inner code rest, aead_sized C -> reachable C g c -> idle c ->
  can_receive (c_state c) = true -> can_send (c_state c) = true -> c_cipher c = Some x -> dec_on c = true -> room c -> room_r c ->
  blen p <= max_frag c + 256 ->
  (forall k n, d_key (cs_r x) = Some k -> rfc_nonce (cs_r x) = Some n ->
     cr_open C (cs_suite x) k n p (Nb CT_APPDATA :: x03 :: x03 :: be_bytes 2 (blen p)) = Some inner) ->
  wraps CT_ALERT [x02; code] inner ->
  memN (bN code) alert_descriptions = true -> bN code <> CLOSE_NOTIFY -> bN code <> USER_CANCELED ->
  exists c', receive_data C (record CT_APPDATA p ++ rest) c = (Err (XAlert (bN code)), c') /\ c_state c' = Failed /\
    exists r, alert_record C (alert_for (XAlert (bN code))) r /\ c_out c' = c_out c ++ r.
Proof. exact sealed_fatal. Qed.
Print Assumptions c44_sealed_partial.
Theorem c44_silent_refuted : exists C g c code e c', reachable C g c /\ idle c /\ In code alert_descriptions /\
  receive_data C (record CT_ALERT [x02; Nb code]) c = (Err e, c') /\ c_out c' <> c_out c.
Proof.
  exists toy, toy_client, (run toy [OInit; OFlush] toy_c0), HANDSHAKE_FAILURE, (XAlert HANDSHAKE_FAILURE),
    (snd (receive_data toy (record CT_ALERT [x02; Nb HANDSHAKE_FAILURE]) (run toy [OInit; OFlush] toy_c0))).
  split; [exists toy_c0; eexists; split; [exact toy_c0_created | reflexivity]|].
  split; [split; vm_compute; reflexivity|]. split; [vm_compute; tauto|].
  split; [apply receive_fst; vm_compute; reflexivity | vm_compute; discriminate].
Qed.
Print Assumptions c44_silent_refuted.
Example c44_case : let c := run toy [OInit; OFlush] toy_c0 in
  idle c /\ can_receive (c_state c) = true /\ can_send (c_state c) = true /\ dec_on c = false /\ room c.
Proof.
  cbv zeta. split; [split; vm_compute; reflexivity|].
  split; [vm_compute; reflexivity|]. split; [vm_compute; reflexivity|]. split; [vm_compute; reflexivity|].
  intros x H. vm_compute in H. discriminate H.
Qed.

(* C54.  RFC 8446 section 6: every alert but close_notify and user_canceled is
   an error alert, whatever its level.  Full statement: the connection fails.
   Missing: the level warning. *)
Theorem c54_clear_partial : forall C g c lv code, aead_sized C -> reachable C g c -> idle c ->
  can_receive (c_state c) = true -> can_send (c_state c) = true -> dec_on c = false -> room c ->
  lv <> x01 -> bN code <> CLOSE_NOTIFY ->
  exists e c', receive_data C (record CT_ALERT [lv; code]) c = (Err e, c') /\ c_state c' = Failed.
Proof.
  exact (fun C g c lv code As R Id Cr Cs Dn Rm Nl Nc => match clear_alert C g c lv code As R Id Cr Cs Dn Rm Nl Nc with
    | ex_intro _ e (ex_intro _ c' (conj A (conj B _))) => ex_intro _ e (ex_intro _ c' (conj A B)) end).
Qed.
Print Assumptions c54_clear_partial.
Theorem c54_sealed_partial : forall C g c x p inner lv code rest, aead_sized C -> reachable C g c -> idle c ->
  can_receive (c_state c) = true -> can_send (c_state c) = true -> c_cipher c = Some x -> dec_on c = true -> room c -> room_r c ->
  blen p <= max_frag c + 256 ->
  (forall k n, d_key (cs_r x) = Some k -> rfc_nonce (cs_r x) = Some n ->
     cr_open C (cs_suite x) k n p (Nb CT_APPDATA :: x03 :: x03 :: be_bytes 2 (blen p)) = Some inner) ->
  wraps CT_ALERT [lv; code] inner -> lv <> x01 -> bN code <> CLOSE_NOTIFY ->
  exists e c', receive_data C (record CT_APPDATA p ++ rest) c = (Err e, c') /\ c_state c' = Failed.
Proof.
  exact (fun C g c x p inner lv code rest As R Id Cr Cs Ex Dn Rm Rr Lp Op W Nl Nc =>
    match sealed_alert C g c x p inner lv code rest As R Id Cr Cs Ex Dn Rm Rr Lp Op W Nl Nc with
    | ex_intro _ e (ex_intro _ c' (conj A (conj B _))) => ex_intro _ e (ex_intro _ c' (conj A B)) end).
Qed.
Print Assumptions c54_sealed_partial.
(* an error alert of level warning is ignored, in every state that may receive
   and send *)
Theorem c54_warning_ignored : forall C g c code, reachable C g c -> idle c ->
  can_receive (c_state c) = true -> can_send (c_state c) = true -> dec_on c = false ->
  memN (bN code) alert_descriptions = true -> bN code <> CLOSE_NOTIFY ->
  receive_one C (cset_in (record CT_ALERT [x01; code]) c) = (Ok true, cset_in [] c).
Proof. exact clear_warning. Qed.
Print Assumptions c54_warning_ignored.
Theorem c54_level_refuted : exists C g c code c', aead_sized C /\ reachable C g c /\ idle c /\
  can_receive (c_state c) = true /\ can_send (c_state c) = true /\ room c /\ code <> CLOSE_NOTIFY /\ code <> USER_CANCELED /\
  memN code alert_descriptions = true /\
  receive_data C (record CT_ALERT [x01; Nb code]) c = (Ok tt, c') /\ c_state c' = c_state c /\ c_state c' <> Failed.
Proof.
  exists toy, toy_client, (run toy [OInit; OFlush] toy_c0), HANDSHAKE_FAILURE,
    (snd (receive_data toy (record CT_ALERT [x01; Nb HANDSHAKE_FAILURE]) (run toy [OInit; OFlush] toy_c0))).
  split; [exact toy_aead_sized|]. split; [exists toy_c0; eexists; split; [exact toy_c0_created | reflexivity]|].
  destruct c44_case as (A & B & D & E & F). split; [exact A|]. split; [exact B|]. split; [exact D|]. split; [exact F|].
  split; [discriminate|]. split; [discriminate|]. split; [reflexivity|].
  split; [apply receive_fst; vm_compute; reflexivity|]. split; [vm_compute; reflexivity | vm_compute; discriminate].
Qed.
Print Assumptions c54_level_refuted.
(* an encrypted alert, received by a connected client *)
Definition c54_inner : bytes := [x02; x28; x15; x00].
Definition c54_p : bytes :=
  match c_cipher c43_c with
  | Some x => match d_key (cs_r x), rfc_nonce (cs_r x) with
              | Some k, Some n => cr_seal toy (cs_suite x) k n c54_inner (Nb CT_APPDATA :: x03 :: x03 :: be_bytes 2 (blen c54_inner + 16))
              | _, _ => [] end
  | None => [] end.
Example c54_case : wraps CT_ALERT [x02; x28] c54_inner /\ blen c54_p <= max_frag c43_c + 256 /\
  (forall x k n, c_cipher c43_c = Some x -> d_key (cs_r x) = Some k -> rfc_nonce (cs_r x) = Some n ->
     cr_open toy (cs_suite x) k n c54_p (Nb CT_APPDATA :: x03 :: x03 :: be_bytes 2 (blen c54_p)) = Some c54_inner) /\
  c_state (snd (receive_data toy (record CT_APPDATA c54_p) c43_c)) = Failed.
Proof.
  split; [exists 1%nat; reflexivity|]. split; [vm_compute; discriminate|]. split; [|vm_compute; reflexivity].
  intros x k n Ex Ek En.
  assert (B : match c_cipher c43_c with Some x => match d_key (cs_r x), rfc_nonce (cs_r x) with
    | Some k, Some n => match cr_open toy (cs_suite x) k n c54_p (Nb CT_APPDATA :: x03 :: x03 :: be_bytes 2 (blen c54_p)) with Some i => beqb i c54_inner | None => false end
    | _, _ => false end | None => false end = true) by (vm_compute; reflexivity).
  rewrite Ex, Ek, En in B. destruct (cr_open _ _ _ _ _ _); [|discriminate B]. apply P_Base.beqb_eq in B. congruence.
Qed.
