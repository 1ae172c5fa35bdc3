From Verif Require Import Base Iana Crypto Cipher Toy P_Toy S_Utils S_Keys P_Keys.

(* C25.  [handshake_keys C suite sd shared th x]: x is what the code's cipher
   object holds after deriving the handshake secrets on side sd. *)
Theorem c25_handshake_keys C suite sd shared th x h klen :
  hmac_sized C -> In (suite, (h, klen)) suite_table ->
  handshake_keys C suite sd shared th x ->
  uses C h klen (hs_traffic C h sd shared th) (cs_w x) /\
  uses C h klen (hs_traffic C h (other_side sd) shared th) (cs_r x) /\
  cs_cfin x = Some (Some (finished_key C h (hs_traffic C h Client shared th))) /\
  cs_sfin x = Some (Some (finished_key C h (hs_traffic C h Server shared th))).
Proof. exact (handshake_keys_rfc C suite sd shared th x h klen). Qed.
Print Assumptions c25_handshake_keys.

Theorem c25_application_keys C suite sd shared th th_sf x h klen :
  hmac_sized C -> In (suite, (h, klen)) suite_table ->
  application_keys C suite sd shared th th_sf x ->
  uses C h klen (ap_traffic C h sd shared th_sf) (cs_w x) /\
  uses C h klen (ap_traffic C h (other_side sd) shared th_sf) (cs_r x).
Proof. exact (application_keys_rfc C suite sd shared th th_sf x h klen). Qed.
Print Assumptions c25_application_keys.

Theorem c25_handshake_match C suite shared th x y :
  hmac_sized C -> In suite (map fst suite_table) ->
  handshake_keys C suite Client shared th x -> handshake_keys C suite Server shared th y ->
  d_key (cs_w x) = d_key (cs_r y) /\ d_iv (cs_w x) = d_iv (cs_r y) /\
  d_key (cs_w y) = d_key (cs_r x) /\ d_iv (cs_w y) = d_iv (cs_r x).
Proof. exact (handshake_keys_match C suite shared th x y). Qed.
Print Assumptions c25_handshake_match.

Theorem c25_application_match C suite shared th th_sf x y :
  hmac_sized C -> In suite (map fst suite_table) ->
  application_keys C suite Client shared th th_sf x -> application_keys C suite Server shared th th_sf y ->
  d_key (cs_w x) = d_key (cs_r y) /\ d_iv (cs_w x) = d_iv (cs_r y) /\
  d_key (cs_w y) = d_key (cs_r x) /\ d_iv (cs_w y) = d_iv (cs_r x).
Proof. exact (application_keys_match C suite shared th th_sf x y). Qed.
Print Assumptions c25_application_match.

(* the derivation does succeed, for the suites other than CCM *)
Theorem c25_derivable_partial C suite sd shared th th_sf :
  hmac_sized C -> hash_sized C -> blen th <= 255 -> blen th_sf <= 255 ->
  In suite [0x1301; 0x1302; 0x1303] ->
  (exists x, handshake_keys C suite sd shared th x) /\ (exists x, application_keys C suite sd shared th th_sf x).
Proof. exact (keys_derivable C suite sd shared th th_sf). Qed.
Print Assumptions c25_derivable_partial.

(* with a CCM suite it never does: TypeError *)
Theorem c25_derivable_refuted : exists C suite, hmac_sized C /\ In suite (map fst suite_table) /\
  forall sd shared th x, ~ handshake_keys C suite sd shared th x.
Proof.
  exists toy, 0x1304. split; [exact toy_hmac_sized|]. split; [right; right; right; left; reflexivity|].
  intros. apply ccm_no_keys. reflexivity.
Qed.
Print Assumptions c25_derivable_refuted.

(* a concrete pair, whose keys are not trivial *)
Example c25_case : exists x y,
  handshake_keys toy 0x1303 Client [x01] [x02; x03] x /\ handshake_keys toy 0x1303 Server [x01] [x02; x03] y /\
  d_key (cs_w x) <> d_key (cs_r x).
Proof.
  exists (snd (derive_handshake_secrets toy [x01] [x02; x03] (snd (skip_early_secrets toy (cs_new 0 0 0x1303 Client))))).
  exists (snd (derive_handshake_secrets toy [x01] [x02; x03] (snd (skip_early_secrets toy (cs_new 0 0 0x1303 Server))))).
  split; [|split].
  - exists 0, 0. eexists _, _. split; [vm_compute; reflexivity|]. split; [vm_compute; reflexivity|]. vm_compute. repeat split.
  - exists 0, 0. eexists _, _. split; [vm_compute; reflexivity|]. split; [vm_compute; reflexivity|]. vm_compute. repeat split.
  - vm_compute. discriminate.
Qed.
