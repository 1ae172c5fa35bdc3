(* The key schedule. *)
From Verif Require Import Base P_Base Iana Crypto Hkdf Cipher S_Utils P_Hkdf S_Keys.
Local Open Scope string_scope.
Local Open Scope list_scope.
Local Open Scope N_scope.

Lemma same_keys_refl x : same_keys x x.
Proof. unfold same_keys. tauto. Qed.
Lemma same_keys_trans x y z : same_keys x y -> same_keys y z -> same_keys x z.
Proof. unfold same_keys. intuition congruence. Qed.

Lemma expand_label_eq C h secret label ctx len b : hmac_sized C ->
  hkdf_expand_label C h secret (ascii_bytes label) ctx len = Ok b -> b = expand_label C h secret label ctx len.
Proof.
  intros Hs H. apply hkdf_expand_label_uses in H. destruct H as (info & E & H).
  pose proof (hkdf_expand_len _ _ _ _ _ _ Hs H) as [_ L].
  apply hkdf_label_layout in E. subst info.
  pose proof (ceil_div_spec len (digest_size h) (digest_size_pos h)) as [A B]. specialize (B _ L).
  rewrite (hkdf_expand_rfc C h secret _ len (N.to_nat (ceil_div len (digest_size h))) Hs) in H.
  - injection H; intros <-. unfold expand_label, label_struct, ceil_div. reflexivity.
  - rewrite N2Nat.id. exact A.
  - lia.
Qed.
Lemma derive_secret_eq C h secret label th b : hmac_sized C ->
  derive_secret C h secret (ascii_bytes label) th = Ok b -> b = derived C h secret label th.
Proof. unfold derive_secret. apply expand_label_eq. Qed.
Lemma suite_of_hash suite h klen : In (suite, (h, klen)) suite_table -> hash_of suite = h /\ key_length suite = klen.
Proof. cbn [In suite_table]. intuition; match goal with E : _ = _ |- _ => injection E; intros; subst; split; reflexivity end. Qed.
Lemma key_iv_eq C suite h klen secret k iv : hmac_sized C -> In (suite, (h, klen)) suite_table ->
  derive_key_and_iv C suite secret = Ok (k, iv) -> k = traffic_key C h klen secret /\ iv = traffic_iv C h secret.
Proof.
  intros Hs I H. apply suite_of_hash in I. destruct I as [Eh Ek]. unfold derive_key_and_iv in H. rewrite Eh, Ek in H.
  destruct (hkdf_expand_label C h secret l_key [] klen) as [k1|] eqn:E1; [|discriminate]. cbn [rbind] in H.
  destruct (hkdf_expand_label C h secret l_iv [] nonce_length) as [iv1|] eqn:E2; [|discriminate]. injection H; intros <- <-.
  apply (expand_label_eq C h secret "key") in E1; [|exact Hs]. apply (expand_label_eq C h secret "iv") in E2; [|exact Hs].
  split; assumption.
Qed.
Lemma zeros_block h : zeros (digest_size h) = zero_block h.
Proof. reflexivity. Qed.
Lemma extract_eq C h salt ikm : salt <> [] -> hkdf_extract C h salt ikm = cr_hmac C h salt ikm.
Proof. destruct salt; [congruence | reflexivity]. Qed.
Lemma derived_nonempty C h secret label th : hmac_sized C -> derived C h secret label th <> [].
Proof.
  intros Hs E. assert (L : blen (derived C h secret label th) = digest_size h).
  { unfold derived, expand_label. rewrite blen_btake. rewrite rfc_stream_len by exact Hs.
    destruct h; cbn; lia. }
  rewrite E in L. destruct h; discriminate.
Qed.
Lemma install_ok s k iv d d' : install s k iv d = (Ok tt, d') -> d_key d' = Some k /\ d_iv d' = Some (of_bytes iv) /\ d_epoch d' = d_epoch d + 1.
Proof. unfold install. destruct (usage_limit s); [|discriminate]. intro H; injection H; intros <-. repeat split. Qed.
Lemma install_both_keys ck civ sk siv x x' : install_both ck civ sk siv x = (Ok tt, x') ->
  cs_suite x' = cs_suite x /\ cs_side x' = cs_side x /\ cs_state x' = cs_state x /\ cs_salt x' = cs_salt x /\
  cs_cfin x' = cs_cfin x /\ cs_sfin x' = cs_sfin x /\
  d_key (cs_w x') = Some (match cs_side x with Client => ck | Server => sk end) /\
  d_iv (cs_w x') = Some (of_bytes (match cs_side x with Client => civ | Server => siv end)) /\
  d_key (cs_r x') = Some (match cs_side x with Client => sk | Server => ck end) /\
  d_iv (cs_r x') = Some (of_bytes (match cs_side x with Client => siv | Server => civ end)) /\
  d_epoch (cs_w x') = d_epoch (cs_w x) + 1 /\ d_epoch (cs_r x') = d_epoch (cs_r x) + 1.
Proof.
  unfold install_both. intro H.
  destruct (cs_side x) eqn:Es;
  (match type of H with match install _ ?k ?iv _ with _ => _ end = _ => destruct (install (cs_suite x) k iv (cs_w x)) as [[[]|e] w] eqn:E1; [|discriminate] end;
   match type of H with match install _ ?k ?iv _ with _ => _ end = _ => destruct (install (cs_suite x) k iv (cs_r x)) as [[[]|e] r] eqn:E2; [|discriminate] end;
   apply install_ok in E1; apply install_ok in E2; destruct E1 as (A1 & A2 & A3), E2 as (B1 & B2 & B3);
   injection H; intros <-; cbn; rewrite Es; repeat split; assumption).
Qed.

(* the object after skip_early_secrets *)
Lemma skip_eq C we re suite sd h klen x1 : hmac_sized C -> In (suite, (h, klen)) suite_table ->
  skip_early_secrets C (cs_new we re suite sd) = (Ok tt, x1) ->
  x1 = mkCs suite sd 1 (derived C h (early_secret C h) "derived" (cr_hash C h [])) None None (dir_none we) (dir_none re) [].
Proof.
  intros Hs I H. apply suite_of_hash in I. destruct I as [Eh _]. unfold skip_early_secrets in H.
  change (negb (cs_state (cs_new we re suite sd) =? 0)) with false in H. cbv iota in H.
  unfold extract_and_advance, cs_new in H. cbn [cs_suite cs_salt] in H. rewrite Eh in H.
  rewrite extract_eq in H by (destruct h; discriminate).
  destruct (derive_secret C h (cr_hmac C h (zeros (digest_size h)) (zeros (digest_size h))) l_derived (hash_empty C h)) as [salt|e] eqn:E; [|discriminate].
  injection H; intros <-. apply (derive_secret_eq C h _ "derived") in E; [|exact Hs]. subst salt. reflexivity.
Qed.

(* handshake traffic *)
Definition hs_facts C h klen sd shared th (x : cs) : Prop :=
  let own := match sd with Client => Client | Server => Server end in
  let peer := match sd with Client => Server | Server => Client end in
  uses C h klen (hs_traffic C h own shared th) (cs_w x) /\
  uses C h klen (hs_traffic C h peer shared th) (cs_r x) /\
  cs_cfin x = Some (Some (finished_key C h (hs_traffic C h Client shared th))) /\
  cs_sfin x = Some (Some (finished_key C h (hs_traffic C h Server shared th))).
Lemma handshake_keys_full C suite sd shared th x h klen : hmac_sized C -> In (suite, (h, klen)) suite_table ->
  handshake_keys C suite sd shared th x ->
  hs_facts C h klen sd shared th x /\ cs_suite x = suite /\ cs_side x = sd /\ cs_state x = 2 /\
  cs_salt x = derived C h (handshake_secret C h shared) "derived" (cr_hash C h []).
Proof.
  intros Hs I (we & re & x1 & x2 & H1 & H2 & L). pose proof (skip_eq _ _ _ _ _ _ _ _ Hs I H1) as ->. clear H1.
  pose proof (suite_of_hash _ _ _ I) as [Eh Ek].
  unfold derive_handshake_secrets in H2. change (negb (cs_state (mkCs suite sd 1 (derived C h (early_secret C h) "derived" (cr_hash C h [])) None None (dir_none we) (dir_none re) []) =? 1)) with false in H2. cbv iota in H2.
  unfold extract_and_advance in H2. cbn [cs_suite cs_salt] in H2. rewrite Eh in H2.
  rewrite extract_eq in H2 by (apply derived_nonempty; exact Hs).
  change (cr_hmac C h (derived C h (early_secret C h) "derived" (cr_hash C h [])) shared) with (handshake_secret C h shared) in H2.
  destruct (derive_secret C h (handshake_secret C h shared) l_derived (hash_empty C h)) as [salt|e] eqn:Es; [|discriminate].
  apply (derive_secret_eq C h _ "derived") in Es; [|exact Hs]. change (hash_empty C h) with (cr_hash C h []) in Es.
  destruct (derive_hs C suite (handshake_secret C h shared) th) as [s|e] eqn:Ed; [|discriminate].
  destruct (install_both _ _ _ _ _) as [[[]|e] y] eqn:Hi in H2; [|discriminate]. injection H2; intros <-. clear H2. rename Hi into H2.
  apply install_both_keys in H2. cbn [cs_suite cs_side cs_state cs_salt cs_cfin cs_sfin cs_set_fin cs_advance] in H2.
  destruct H2 as (A1 & A2 & A3 & A4 & A5 & A6 & A7 & A8 & A9 & A10 & _).
  destruct L as (L1 & L2 & L3 & L4 & L5 & L6 & L7 & L8 & _ & L9 & L10 & _).
  cbn [cs_logs cs_suite cs_side cs_state cs_salt cs_cfin cs_sfin cs_w cs_r] in L1, L2, L3, L4, L5, L6, L7, L8, L9, L10.
  unfold derive_hs in Ed. rewrite Eh in Ed.
  destruct (derive_secret C h (handshake_secret C h shared) l_chs th) as [cts|] eqn:D1; [|discriminate]. cbn [rbind] in Ed.
  destruct (derive_secret C h (handshake_secret C h shared) l_shs th) as [sts|] eqn:D2; [|discriminate]. cbn [rbind] in Ed.
  destruct (derive_secret C h cts l_finished []) as [cf|] eqn:D3; [|discriminate]. cbn [rbind] in Ed.
  destruct (derive_secret C h sts l_finished []) as [sf|] eqn:D4; [|discriminate]. cbn [rbind] in Ed.
  destruct (derive_key_and_iv C suite cts) as [[ck civ]|] eqn:D5; [|discriminate]. cbn [rbind] in Ed.
  destruct (derive_key_and_iv C suite sts) as [[sk siv]|] eqn:D6; [|discriminate]. cbn [rbind] in Ed.
  injection Ed; intros <-. cbn [h_ckey h_skey h_cfin h_sfin fst snd] in *.
  apply (derive_secret_eq C h _ "c hs traffic") in D1; [|exact Hs]. apply (derive_secret_eq C h _ "s hs traffic") in D2; [|exact Hs].
  apply (derive_secret_eq C h _ "finished") in D3; [|exact Hs]. apply (derive_secret_eq C h _ "finished") in D4; [|exact Hs].
  apply (key_iv_eq C suite h klen) in D5; [|exact Hs|exact I]. apply (key_iv_eq C suite h klen) in D6; [|exact Hs|exact I].
  destruct D5 as [-> ->], D6 as [-> ->]. subst cf sf cts sts salt.
  unfold hs_facts, uses, hs_traffic, finished_key. cbv zeta.
  rewrite L1, L2, L3, L4, L5, L6, L7, L8, L9, L10, A1, A2, A3, A4, A5, A6, A7, A8, A9, A10.
  destruct sd; repeat split.
Qed.
Lemma handshake_keys_rfc C suite sd shared th x h klen : hmac_sized C -> In (suite, (h, klen)) suite_table ->
  handshake_keys C suite sd shared th x ->
  uses C h klen (hs_traffic C h sd shared th) (cs_w x) /\
  uses C h klen (hs_traffic C h (other_side sd) shared th) (cs_r x) /\
  cs_cfin x = Some (Some (finished_key C h (hs_traffic C h Client shared th))) /\
  cs_sfin x = Some (Some (finished_key C h (hs_traffic C h Server shared th))).
Proof. intros Hs I H. destruct (handshake_keys_full _ _ _ _ _ _ _ _ Hs I H) as [F _]. destruct sd; exact F. Qed.
Lemma application_keys_rfc C suite sd shared th th_sf x h klen : hmac_sized C -> In (suite, (h, klen)) suite_table ->
  application_keys C suite sd shared th th_sf x ->
  uses C h klen (ap_traffic C h sd shared th_sf) (cs_w x) /\
  uses C h klen (ap_traffic C h (other_side sd) shared th_sf) (cs_r x).
Proof.
  intros Hs I (x2 & th_cf & v & x3 & H1 & H2 & L).
  destruct (handshake_keys_full _ _ _ _ _ _ _ _ Hs I H1) as (_ & E1 & E2 & E3 & E4).
  pose proof (suite_of_hash _ _ _ I) as [Eh Ek].
  unfold derive_master_secrets in H2. rewrite E3 in H2. change (negb (2 =? 2)) with false in H2. cbv iota zeta in H2.
  rewrite E1, Eh, E4 in H2. rewrite extract_eq in H2 by (apply derived_nonempty; exact Hs).
  change (cr_hmac C h (derived C h (handshake_secret C h shared) "derived" (cr_hash C h [])) (zeros (digest_size h))) with (master_secret C h shared) in H2.
  destruct (derive_ap C suite (master_secret C h shared) th_sf th_cf) as [s|e] eqn:Ed; [|discriminate].
  destruct (install_both _ _ _ _ x2) as [[[]|e] x4] eqn:Ei; [|discriminate].
  apply install_both_keys in Ei. injection H2; intros <- _. cbn in L.
  destruct L as (_ & _ & _ & _ & _ & _ & L7 & L8 & _ & L9 & L10 & _).
  destruct Ei as (_ & _ & _ & _ & _ & _ & A7 & A8 & A9 & A10 & _). cbn in L7, L8, L9, L10.
  unfold derive_ap in Ed. rewrite Eh in Ed.
  destruct (derive_secret C h (master_secret C h shared) l_cap th_sf) as [cts|] eqn:D1; [|discriminate]. cbn [rbind] in Ed.
  destruct (derive_secret C h (master_secret C h shared) l_sap th_sf) as [sts|] eqn:D2; [|discriminate]. cbn [rbind] in Ed.
  destruct (derive_secret C h (master_secret C h shared) l_exp th_sf) as [ex|] eqn:D3; [|discriminate]. cbn [rbind] in Ed.
  destruct (derive_secret C h (master_secret C h shared) l_res th_cf) as [rs|] eqn:D4; [|discriminate]. cbn [rbind] in Ed.
  destruct (derive_key_and_iv C suite cts) as [[ck civ]|] eqn:D5; [|discriminate]. cbn [rbind] in Ed.
  destruct (derive_key_and_iv C suite sts) as [[sk siv]|] eqn:D6; [|discriminate]. cbn [rbind] in Ed.
  injection Ed; intros <-. cbn [a_ckey a_skey fst snd] in *.
  apply (derive_secret_eq C h _ "c ap traffic") in D1; [|exact Hs]. apply (derive_secret_eq C h _ "s ap traffic") in D2; [|exact Hs].
  apply (key_iv_eq C suite h klen) in D5; [|exact Hs|exact I]. apply (key_iv_eq C suite h klen) in D6; [|exact Hs|exact I].
  destruct D5 as [-> ->], D6 as [-> ->]. subst cts sts.
  unfold uses, ap_traffic. rewrite L7, L8, L9, L10, A7, A8, A9, A10, E2. destruct sd; repeat split.
Qed.
Lemma handshake_keys_match C suite shared th x y : hmac_sized C -> In suite (map fst suite_table) ->
  handshake_keys C suite Client shared th x -> handshake_keys C suite Server shared th y ->
  d_key (cs_w x) = d_key (cs_r y) /\ d_iv (cs_w x) = d_iv (cs_r y) /\
  d_key (cs_w y) = d_key (cs_r x) /\ d_iv (cs_w y) = d_iv (cs_r x).
Proof.
  intros Hs I Hx Hy. apply in_map_iff in I. destruct I as ([s [h klen]] & E & I). cbn in E. subst s.
  destruct (handshake_keys_rfc _ _ _ _ _ _ _ _ Hs I Hx) as ([A1 A2] & [A3 A4] & _).
  destruct (handshake_keys_rfc _ _ _ _ _ _ _ _ Hs I Hy) as ([B1 B2] & [B3 B4] & _). cbn in *. repeat split; congruence.
Qed.
Lemma application_keys_match C suite shared th th_sf x y : hmac_sized C -> In suite (map fst suite_table) ->
  application_keys C suite Client shared th th_sf x -> application_keys C suite Server shared th th_sf y ->
  d_key (cs_w x) = d_key (cs_r y) /\ d_iv (cs_w x) = d_iv (cs_r y) /\
  d_key (cs_w y) = d_key (cs_r x) /\ d_iv (cs_w y) = d_iv (cs_r x).
Proof.
  intros Hs I Hx Hy. apply in_map_iff in I. destruct I as ([s [h klen]] & E & I). cbn in E. subst s.
  destruct (application_keys_rfc _ _ _ _ _ _ _ _ _ Hs I Hx) as ([A1 A2] & [A3 A4]).
  destruct (application_keys_rfc _ _ _ _ _ _ _ _ _ Hs I Hy) as ([B1 B2] & [B3 B4]). cbn in *. repeat split; congruence.
Qed.

(* the derivations succeed *)
Lemma expand_label_total C h secret label ctx len : hmac_sized C -> blen label <= 249 -> blen ctx <= 255 -> len <= 64 ->
  exists b, hkdf_expand_label C h secret label ctx len = Ok b.
Proof.
  intros Hs L1 L2 L3. unfold hkdf_expand_label.
  destruct (hkdf_label_range label ctx len) as [(A & B & D & info & E)|[A _]]; [|lia].
  rewrite E. cbn [rbind]. eexists. eapply (hkdf_expand_rfc C h secret info len 2%nat Hs); [|lia]. destruct h; cbn [digest_size]; lia.
Qed.
Lemma derive_secret_total C h secret label th : hmac_sized C -> blen label <= 249 -> blen th <= 255 ->
  exists b, derive_secret C h secret label th = Ok b.
Proof. intros. apply expand_label_total; try assumption. destruct h; cbn [digest_size]; lia. Qed.
Lemma key_iv_total C suite secret : hmac_sized C -> exists k iv, derive_key_and_iv C suite secret = Ok (k, iv).
Proof.
  intros Hs. unfold derive_key_and_iv.
  destruct (expand_label_total C (hash_of suite) secret l_key [] (key_length suite) Hs) as [k ->];
    [vm_compute; discriminate | vm_compute; discriminate | unfold key_length; destruct (_ || _); lia |]. cbn [rbind].
  destruct (expand_label_total C (hash_of suite) secret l_iv [] nonce_length Hs) as [iv ->];
    [vm_compute; discriminate | vm_compute; discriminate | unfold nonce_length; lia |]. cbn [rbind]. eauto.
Qed.
Ltac lbl := vm_compute; discriminate.
Lemma skip_total C x : hmac_sized C -> hash_sized C -> cs_state x = 0 ->
  exists x1, skip_early_secrets C x = (Ok tt, x1) /\ cs_state x1 = 1 /\ cs_suite x1 = cs_suite x.
Proof.
  intros Hs Hh E. unfold skip_early_secrets, extract_and_advance. rewrite E. change (negb (0 =? 0)) with false. cbv iota.
  destruct (derive_secret_total C (hash_of (cs_suite x)) (hkdf_extract C (hash_of (cs_suite x)) (cs_salt x) (zeros (digest_size (hash_of (cs_suite x))))) l_derived (hash_empty C (hash_of (cs_suite x))) Hs) as [b ->];
    [lbl | unfold hash_empty; rewrite Hh; destruct (hash_of _); lbl |].
  eexists. split; [reflexivity|]. cbn. rewrite E. split; reflexivity.
Qed.
Lemma install_both_total ck civ sk siv x lim : usage_limit (cs_suite x) = Some lim ->
  exists x1, install_both ck civ sk siv x = (Ok tt, x1).
Proof. intro E. unfold install_both, install. destruct (cs_side x); rewrite E; eauto. Qed.
Lemma install_both_ccm ck civ sk siv x : usage_limit (cs_suite x) = None ->
  exists x1, install_both ck civ sk siv x = (Err XType, x1).
Proof. intro E. unfold install_both, install. destruct (cs_side x); rewrite E; eauto. Qed.
Lemma derive_hs_total C suite secret th : hmac_sized C -> blen th <= 255 -> exists s, derive_hs C suite secret th = Ok s.
Proof.
  intros Hs L. unfold derive_hs.
  destruct (derive_secret_total C (hash_of suite) secret l_chs th Hs) as [cts ->]; [lbl | assumption |]. cbn [rbind].
  destruct (derive_secret_total C (hash_of suite) secret l_shs th Hs) as [sts ->]; [lbl | assumption |]. cbn [rbind].
  destruct (derive_secret_total C (hash_of suite) cts l_finished [] Hs) as [a ->]; [lbl | lbl |]. cbn [rbind].
  destruct (derive_secret_total C (hash_of suite) sts l_finished [] Hs) as [b ->]; [lbl | lbl |]. cbn [rbind].
  destruct (key_iv_total C suite cts Hs) as (k & iv & ->). cbn [rbind].
  destruct (key_iv_total C suite sts Hs) as (k' & iv' & ->). cbn [rbind]. eauto.
Qed.
Lemma derive_ap_total C suite secret th th' : hmac_sized C -> blen th <= 255 -> blen th' <= 255 -> exists s, derive_ap C suite secret th th' = Ok s.
Proof.
  intros Hs L L'. unfold derive_ap.
  destruct (derive_secret_total C (hash_of suite) secret l_cap th Hs) as [cts ->]; [lbl | assumption |]. cbn [rbind].
  destruct (derive_secret_total C (hash_of suite) secret l_sap th Hs) as [sts ->]; [lbl | assumption |]. cbn [rbind].
  destruct (derive_secret_total C (hash_of suite) secret l_exp th Hs) as [a ->]; [lbl | assumption |]. cbn [rbind].
  destruct (derive_secret_total C (hash_of suite) secret l_res th' Hs) as [b ->]; [lbl | assumption |]. cbn [rbind].
  destruct (key_iv_total C suite cts Hs) as (k & iv & ->). cbn [rbind].
  destruct (key_iv_total C suite sts Hs) as (k' & iv' & ->). cbn [rbind]. eauto.
Qed.
Lemma derive_hs_step C shared th x : hmac_sized C -> hash_sized C -> blen th <= 255 -> cs_state x = 1 ->
  exists r x2, derive_handshake_secrets C shared th x = (r, x2) /\
    r = match usage_limit (cs_suite x) with Some _ => Ok tt | None => Err XType end /\ cs_state x2 = 2 /\ cs_suite x2 = cs_suite x.
Proof.
  intros Hs Hh L E. unfold derive_handshake_secrets, extract_and_advance. rewrite E. change (negb (1 =? 1)) with false. cbv iota.
  destruct (derive_secret_total C (hash_of (cs_suite x)) (hkdf_extract C (hash_of (cs_suite x)) (cs_salt x) shared) l_derived (hash_empty C (hash_of (cs_suite x))) Hs) as [b ->];
    [lbl | unfold hash_empty; rewrite Hh; destruct (hash_of _); lbl |].
  destruct (derive_hs_total C (cs_suite x) (hkdf_extract C (hash_of (cs_suite x)) (cs_salt x) shared) th Hs L) as [s ->].
  unfold install_both, install. cbn [cs_side cs_suite cs_set_fin cs_advance].
  destruct (cs_side x), (usage_limit (cs_suite x)) eqn:Eu; do 2 eexists; (split; [reflexivity|]); cbn; rewrite ?E; repeat split; reflexivity.
Qed.
Lemma derive_ap_step C th th' x : hmac_sized C -> blen th <= 255 -> blen th' <= 255 -> cs_state x = 2 ->
  usage_limit (cs_suite x) <> None ->
  exists v x2, derive_master_secrets C th th' x = (Ok v, x2).
Proof.
  intros Hs L L' E U. unfold derive_master_secrets. rewrite E. change (negb (2 =? 2)) with false. cbv iota zeta.
  destruct (derive_ap_total C (cs_suite x) (hkdf_extract C (hash_of (cs_suite x)) (cs_salt x) (zeros (digest_size (hash_of (cs_suite x))))) th th' Hs L L') as [s ->].
  destruct (usage_limit (cs_suite x)) eqn:Eu; [|congruence].
  destruct (install_both_total (fst (a_ckey s)) (snd (a_ckey s)) (fst (a_skey s)) (snd (a_skey s)) x _ Eu) as [x1 ->]. eauto.
Qed.
Lemma keys_derivable C suite sd shared th th_sf : hmac_sized C -> hash_sized C -> blen th <= 255 -> blen th_sf <= 255 ->
  In suite [0x1301; 0x1302; 0x1303] ->
  (exists x, handshake_keys C suite sd shared th x) /\ (exists x, application_keys C suite sd shared th th_sf x).
Proof.
  intros Hs Hh L1 L2 I.
  assert (U : usage_limit suite <> None) by (cbn in I; destruct I as [<-|[<-|[<-|[]]]]; discriminate).
  destruct (skip_total C (cs_new 0 0 suite sd) Hs Hh eq_refl) as (x1 & H1 & S1 & E1).
  destruct (derive_hs_step C shared th x1 Hs Hh L1 S1) as (r & x2 & H2 & -> & S2 & E2).
  rewrite E1 in H2, E2. change (cs_suite (cs_new 0 0 suite sd)) with suite in *.
  destruct (usage_limit suite) eqn:Eu; [|congruence].
  assert (K : handshake_keys C suite sd shared th x2) by (exists 0, 0, x1, x2; repeat split; assumption).
  split; [eauto|].
  destruct (derive_ap_step C th_sf th_sf x2 Hs L2 L2 S2) as (v & x3 & H3); [rewrite E2, Eu; discriminate|].
  exists x3, x2, th_sf, v, x3. split; [exact K|]. split; [exact H3 | apply same_keys_refl].
Qed.
Lemma ccm_no_keys C suite sd shared th x : usage_limit suite = None -> ~ handshake_keys C suite sd shared th x.
Proof.
  intros U (we & re & x1 & x2 & H1 & H2 & _). unfold skip_early_secrets in H1.
  destruct (negb _); [discriminate|]. unfold extract_and_advance in H1.
  destruct (derive_secret _ _ _ _ _); [|discriminate]. injection H1; intros <-.
  unfold derive_handshake_secrets, extract_and_advance in H2. destruct (negb _); [discriminate|].
  destruct (derive_secret _ _ _ _ _); [|discriminate]. destruct (derive_hs _ _ _ _) as [s|]; [|discriminate].
  match type of H2 with context [install_both ?a ?b ?c ?d ?x] => destruct (install_both_ccm a b c d x U) as [? E]; rewrite E in H2; discriminate end.
Qed.
