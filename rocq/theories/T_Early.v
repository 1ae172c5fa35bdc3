(* C80 *)
From Verif Require Import Base Iana Crypto Cipher S_Utils S_Hist S_Keys S_Nonce Early S_Early P_Early P_Early2 P_Early3 Toy P_Toy.
Local Open Scope string_scope.
Local Open Scope list_scope.
Local Open Scope N_scope.

(* with a pre-shared key a new object gives the binder key and the early exporter
   secret of RFC 8446 7.1, and tells the key log the early traffic secret *)
Theorem c80_early : forall C, hmac_sized C -> hash_sized C ->
  forall suite h klen lim, In (suite, (h, klen)) suite_table -> In (suite, lim) limit_table ->
  forall psk kind th we re sd, blen th <= 255 ->
  exists x, call_step C (KEarly psk (named kind) th) (cs_new we re suite sd) =
    (Ok (APair (binder_key C h kind psk) (early_exporter C h psk th)), x, []) /\
    cs_klog x = [("CLIENT_EARLY_TRAFFIC_SECRET", early_traffic C h psk th)].
Proof. exact early_rfc. Qed.
Print Assumptions c80_early.

(* Whatever methods are called, in whatever order and with whatever arguments,
   the calls that derive keys return only in the order of the schedule, and
   each direction uses the latest traffic secret that they give: the early one
   in one direction only, then those of the handshake and of the application,
   which follow from the pre-shared key. *)
Theorem c80_history : forall C, hmac_sized C -> hash_sized C ->
  forall suite h klen lim, In (suite, (h, klen)) suite_table -> In (suite, lim) limit_table ->
  forall we re sd l, Forall sized_call l ->
  let p := calls C l (cs_new we re suite sd) in
  scheduled (p_keys p) /\ latest C h klen (written C h sd (p_keys p)) (cs_w (p_obj p)) /\
  latest C h klen (written C h (other_side sd) (p_keys p)) (cs_r (p_obj p)).
Proof. exact history. Qed.
Print Assumptions c80_history.

(* Full statement: no key encrypts twice with one nonce, whatever methods are
   called.  Missing: this needs the keys derived one after the other to differ,
   and is false without, see c80_nonces_refuted. *)
Theorem c80_nonces_partial : forall C, hmac_sized C -> hash_sized C ->
  forall suite h klen lim, In (suite, (h, klen)) suite_table -> In (suite, lim) limit_table ->
  forall we re sd l, Forall sized_call l ->
  let p := calls C l (cs_new we re suite sd) in
  NoDup (map (traffic_key C h klen) (written C h sd (p_keys p))) -> NoDup (map key_nonce (p_seals p)).
Proof. exact nonces_once. Qed.
Print Assumptions c80_nonces_partial.

(* every encryption is under a key of the schedule *)
Theorem c80_keys : forall C, hmac_sized C -> hash_sized C ->
  forall suite h klen lim, In (suite, (h, klen)) suite_table -> In (suite, lim) limit_table ->
  forall we re sd l s, Forall sized_call l -> In s (p_seals (calls C l (cs_new we re suite sd))) ->
  exists w, In w (written C h sd (p_keys (calls C l (cs_new we re suite sd)))) /\ se_key s = traffic_key C h klen w.
Proof. exact seals_under. Qed.
Print Assumptions c80_keys.

(* what a client encrypts before the handshake, a server with the same
   pre-shared key and hello decrypts *)
Theorem c80_flow : forall C, hmac_sized C -> hash_sized C -> aead_correct C ->
  forall suite h klen lim, In (suite, (h, klen)) suite_table -> In (suite, lim) limit_table ->
  forall psk mode th we re we' re' ds, opening (KEarly psk mode th) -> blen th <= 255 -> N.of_nat (length ds) <= lim ->
  exists b x cts, length cts = length ds /\
    p_answers (calls C (KEarly psk mode th :: map seal_call ds) (cs_new we re suite Client)) =
      Ok (APair b x) :: map (fun c => Ok (ABytes c)) cts /\
    p_answers (calls C (KEarly psk mode th :: map open_call (combine cts ds)) (cs_new we' re' suite Server)) =
      Ok (APair b x) :: map (fun d => Ok (ABytes (fst d))) ds.
Proof. exact early_flow. Qed.
Print Assumptions c80_flow.

(* with the CCM suites nothing is ever encrypted or decrypted *)
Theorem c80_ccm : forall C suite we re sd l k, In suite [0x1304; 0x1305] ->
  let x := p_obj (calls C l (cs_new we re suite sd)) in
  p_seals (calls C l (cs_new we re suite sd)) = [] /\
  match k with KEncrypt _ _ | KDecrypt _ _ | KHandshake _ _ | KEarly _ _ _ | KMaster _ _ => exists e, fst (fst (call_step C k x)) = Err e | _ => True end.
Proof. exact ccm_nothing. Qed.
Print Assumptions c80_ccm.

(* without a pre-shared key the schedule is the one of C25 *)
Example c80_no_psk : forall C h sd shared th,
  psk_hs_traffic C h sd (zero_block h) shared th = hs_traffic C h sd shared th /\
  psk_ap_traffic C h sd (zero_block h) shared th = ap_traffic C h sd shared th.
Proof. intros. split; reflexivity. Qed.

Definition c80_th : bytes := repeat x07 32.
(* early data, then the rest of the schedule, with wrong calls in between *)
Definition c80_calls : list call :=
  [KHandshake [x01] c80_th; KEarly [x09] "ext" c80_th; KEarly [x09] "external" c80_th; KEncrypt [x61] []; KSkip; KDecrypt [x61] [];
   KHandshake [x01] c80_th; KEncrypt [x62] []; KMaster c80_th c80_th; KEncrypt [x63] []].
Example c80_case : hmac_sized toy /\ hash_sized toy /\ aead_correct toy /\ In (0x1303, (SHA256, 32)) suite_table /\ In (0x1303, 2 ^ 64) limit_table /\
  Forall sized_call c80_calls /\
  map (fun r => match r with Ok _ => true | Err _ => false end) (p_answers (calls toy c80_calls (cs_new 0 0 0x1303 Client))) =
    [false; false; true; true; false; false; true; true; true; true] /\
  length (p_seals (calls toy c80_calls (cs_new 0 0 0x1303 Client))) = 3%nat /\
  NoDup (map (traffic_key toy SHA256 32) (written toy SHA256 Client (p_keys (calls toy c80_calls (cs_new 0 0 0x1303 Client))))).
Proof.
  split; [exact toy_hmac_sized|]. split; [exact toy_hash_sized|]. split; [exact toy_aead_correct|]. split; [cbn; auto|]. split; [cbn; auto|].
  split; [repeat constructor; vm_compute; discriminate|]. split; [vm_compute; reflexivity|]. split; [vm_compute; reflexivity|].
  vm_compute. repeat constructor; cbn; intuition discriminate.
Qed.

(* derive_master_secrets returns as often as it is called and starts the nonces
   anew, under the same key if the transcript is the same *)
Definition c80_again : list call :=
  [KSkip; KHandshake [x01] c80_th; KMaster c80_th c80_th; KEncrypt [x61] []; KMaster c80_th c80_th; KEncrypt [x62] []].
Theorem c80_nonces_refuted : exists l, Forall sized_call l /\
  Forall (fun r => exists a, r = Ok a) (p_answers (calls toy l (cs_new 0 0 0x1303 Client))) /\
  match p_seals (calls toy l (cs_new 0 0 0x1303 Client)) with
  | [s; t] => key_nonce s = key_nonce t /\ se_data s <> se_data t | _ => False end.
Proof.
  exists c80_again. split; [repeat constructor; vm_compute; discriminate|].
  split; [vm_compute; repeat constructor; eexists; reflexivity|]. vm_compute. split; [reflexivity | discriminate].
Qed.
Print Assumptions c80_nonces_refuted.
(* its keys are otherwise different *)
Example c80_case_again : NoDup (map (traffic_key toy SHA256 32)
  (written toy SHA256 Client (removelast (p_keys (calls toy c80_again (cs_new 0 0 0x1303 Client)))))).
Proof. vm_compute. repeat constructor; cbn; intuition discriminate. Qed.
