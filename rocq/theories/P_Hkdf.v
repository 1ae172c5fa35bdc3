From Verif Require Import Base P_Base Crypto Hkdf S_Utils.

Lemma expand_loop_ok C h prk info : forall k j,
  (j + k <= 255)%nat ->
  expand_loop C h prk info k (N.of_nat (S j)) (rfc5869_T C h prk info j) =
  Ok (map (rfc5869_T C h prk info) (seq (S j) k)).
Proof.
  induction k as [|k IH]; intros j H; [reflexivity|].
  cbn [expand_loop seq map].
  unfold to_bytes. change (256 ^ N.of_nat 1) with 256.
  assert (N.of_nat (S j) <? 256 = true) as -> by (apply N.ltb_lt; lia).
  cbn [rbind be_bytes app].
  rewrite N.mod_small by lia.
  replace (N.of_nat (S j) + 1) with (N.of_nat (S (S j))) by lia.
  change (cr_hmac C h prk (rfc5869_T C h prk info j ++ info ++ [Nb (N.of_nat (S j))]))
    with (rfc5869_T C h prk info (S j)).
  rewrite IH by lia. reflexivity.
Qed.
Lemma expand_loop_over C h prk info : forall k j prev,
  (j + k >= 255)%nat ->
  expand_loop C h prk info (S k) (N.of_nat (S j)) prev = Err XOverflow.
Proof.
  induction k as [|k IH]; intros j prev H.
  - cbn [expand_loop]. unfold to_bytes. change (256 ^ N.of_nat 1) with 256.
    assert (N.of_nat (S j) <? 256 = false) as -> by (apply N.ltb_ge; lia). reflexivity.
  - remember (S k) as k1. cbn [expand_loop]. unfold to_bytes. change (256 ^ N.of_nat 1) with 256.
    destruct (N.of_nat (S j) <? 256); [|reflexivity]. cbn [rbind].
    replace (N.of_nat (S j) + 1) with (N.of_nat (S (S j))) by lia. subst k1.
    rewrite IH by lia. reflexivity.
Qed.

Lemma concat_seq C h prk info n :
  concat (map (rfc5869_T C h prk info) (seq 1 n)) = rfc5869_stream C h prk info n.
Proof.
  induction n as [|n IH]; [reflexivity|].
  rewrite seq_S, map_app, concat_app, IH. cbn [map concat rfc5869_stream]. rewrite app_nil_r. reflexivity.
Qed.
Lemma rfc_T_len C h prk info i : hmac_sized C -> (i <> 0)%nat ->
  blen (rfc5869_T C h prk info i) = digest_size h.
Proof. intros H Hi. destruct i; [contradiction|]. cbn. apply H. Qed.
Lemma rfc_stream_len C h prk info n : hmac_sized C ->
  blen (rfc5869_stream C h prk info n) = N.of_nat n * digest_size h.
Proof.
  intros H. induction n as [|n IH]; [reflexivity|].
  cbn [rfc5869_stream]. rewrite blen_app, IH, rfc_T_len by auto. lia.
Qed.
(* a longer stream has the shorter one as prefix *)
Lemma rfc_stream_prefix C h prk info n m : hmac_sized C -> (n <= m)%nat ->
  btake (N.of_nat n * digest_size h) (rfc5869_stream C h prk info m) = rfc5869_stream C h prk info n.
Proof.
  intros H Hnm. induction Hnm as [|m Hnm IH].
  - apply btake_all. rewrite rfc_stream_len by assumption. lia.
  - cbn [rfc5869_stream]. rewrite btake_app_le; [exact IH|].
    rewrite rfc_stream_len by assumption. apply N.mul_le_mono_r. lia.
Qed.

Lemma ceil_div_spec a b : 0 < b -> a <= ceil_div a b * b /\ (forall q, a <= q * b -> ceil_div a b <= q).
Proof.
  intros Hb. unfold ceil_div.
  pose proof (N.div_mod (a + b - 1) b ltac:(lia)) as E.
  pose proof (N.mod_lt (a + b - 1) b ltac:(lia)) as L.
  split; [nia|]. intros q Hq.
  apply N.lt_succ_r. apply N.div_lt_upper_bound; [lia|]. nia.
Qed.

Lemma btake_btake_le n m b : n <= m -> btake n (btake m b) = btake n b.
Proof.
  intros H. unfold btake. rewrite firstn_firstn. f_equal. lia.
Qed.

Lemma digest_size_pos h : 0 < digest_size h.
Proof. destruct h; reflexivity. Qed.

Lemma hkdf_expand_rfc C h prk info len m : hmac_sized C ->
  len <= N.of_nat m * digest_size h -> (m <= 255)%nat ->
  hkdf_expand C h prk info len = Ok (btake len (rfc5869_stream C h prk info m)).
Proof.
  intros HS Hlen Hm. unfold hkdf_expand. pose proof (digest_size_pos h) as HP.
  destruct (len =? digest_size h) eqn:E.
  - apply N.eqb_eq in E. subst len. f_equal.
    assert (1 <= m)%nat as H1 by (destruct m; [lia|lia]).
    pose proof (rfc_stream_prefix C h prk info 1 m HS H1) as HH.
    rewrite N.mul_1_l in HH. rewrite HH. reflexivity.
  - destruct (ceil_div_spec len (digest_size h) HP) as [C1 C2].
    pose proof (C2 _ Hlen) as C3. set (n := N.to_nat (ceil_div len (digest_size h))) in *.
    pose proof (expand_loop_ok C h prk info n 0) as HL.
    change (N.of_nat 1) with 1 in HL. change (rfc5869_T C h prk info 0) with (@nil byte) in HL.
    rewrite HL by lia. cbn [rbind]. rewrite concat_seq. f_equal.
    rewrite <- (rfc_stream_prefix C h prk info n m HS) by lia.
    apply btake_btake_le. unfold n. rewrite Nnat.N2Nat.id. exact C1.
Qed.

Lemma hkdf_expand_len C h prk info len out : hmac_sized C ->
  hkdf_expand C h prk info len = Ok out -> blen out = len /\ len <= 255 * digest_size h.
Proof.
  intros HS H. destruct (N.le_gt_cases len (255 * digest_size h)) as [L|L].
  - assert (exists m, (m <= 255)%nat /\ N.of_nat m = 255) as [m [Hm Em]] by (exists (N.to_nat 255); lia).
    rewrite (hkdf_expand_rfc C h prk info len m HS) in H; [|rewrite Em; exact L|exact Hm].
    injection H as <-. rewrite blen_btake, rfc_stream_len, Em by assumption. split; [|assumption]. lia.
  - exfalso. unfold hkdf_expand in H. pose proof (digest_size_pos h) as HP.
    assert (len =? digest_size h = false) as E by (apply N.eqb_neq; lia). rewrite E in H.
    destruct (ceil_div_spec len (digest_size h) HP) as [C1 _].
    assert (256 <= ceil_div len (digest_size h)) as HC by nia.
    destruct (N.to_nat (ceil_div len (digest_size h))) as [|k] eqn:EK; [lia|].
    pose proof (expand_loop_over C h prk info k 0) as HH. change (N.of_nat 1) with 1 in HH.
    rewrite HH in H by lia. discriminate.
Qed.
Lemma hkdf_expand_over C h prk info len :
  255 * digest_size h < len -> hkdf_expand C h prk info len = Err XOverflow.
Proof.
  intros L. unfold hkdf_expand. pose proof (digest_size_pos h) as HP.
  assert (len =? digest_size h = false) as -> by (apply N.eqb_neq; lia).
  destruct (ceil_div_spec len (digest_size h) HP) as [C1 _].
  assert (256 <= ceil_div len (digest_size h)) as HC by nia.
  destruct (N.to_nat (ceil_div len (digest_size h))) as [|k] eqn:EK; [lia|].
  pose proof (expand_loop_over C h prk info k 0) as HH. change (N.of_nat 1) with 1 in HH.
  rewrite HH by lia. reflexivity.
Qed.

Lemma hkdf_extract_rfc C h salt ikm :
  hkdf_extract C h salt ikm = cr_hmac C h (if is_nil salt then repeat x00 (N.to_nat (digest_size h)) else salt) ikm.
Proof. destruct salt; reflexivity. Qed.

(* C34 *)
Lemma app_inj_len {A} (a b c d : list A) : length a = length c -> a ++ b = c ++ d -> a = c /\ b = d.
Proof.
  revert c; induction a as [|x a IH]; destruct c as [|y c]; cbn; intros HL H; try discriminate; auto.
  inversion H; subst. destruct (IH c) as [-> ->]; auto.
Qed.
Lemma put_var_inj n a b ra rb x : put_var n a = Ok ra -> put_var n b = Ok rb ->
  forall y, ra ++ x = rb ++ y -> a = b /\ x = y.
Proof.
  intros H1 H2 y H. apply put_var_ok in H1 as [-> L1]. apply put_var_ok in H2 as [-> L2].
  rewrite <- !app_assoc in H.
  apply app_inj_len in H as [H3 H4]; [|rewrite !length_be_bytes; reflexivity].
  apply (f_equal of_bytes) in H3. rewrite !of_be_bytes in H3 by assumption.
  unfold blen in H3. apply app_inj_len in H4; [assumption|lia].
Qed.
Lemma hkdf_label_inj l1 c1 n1 l2 c2 n2 info :
  hkdf_label l1 c1 n1 = Ok info -> hkdf_label l2 c2 n2 = Ok info -> n1 = n2 /\ l1 = l2 /\ c1 = c2.
Proof.
  unfold hkdf_label. intros H1 H2.
  apply rbind_ok in H1 as [a1 [A1 H1]]. apply rbind_ok in H1 as [b1 [B1 H1]]. apply rbind_ok in H1 as [d1 [D1 H1]].
  apply rbind_ok in H2 as [a2 [A2 H2]]. apply rbind_ok in H2 as [b2 [B2 H2]]. apply rbind_ok in H2 as [d2 [D2 H2]].
  inversion H1; inversion H2; subst. clear H1 H2. rename H3 into H.
  apply to_bytes_ok in A1 as [-> [L1 _]]. apply to_bytes_ok in A2 as [-> [L2 _]].
  apply app_inj_len in H as [HA H]; [|rewrite !length_be_bytes; reflexivity].
  apply (f_equal of_bytes) in HA. rewrite !of_be_bytes in HA by assumption.
  destruct (put_var_inj _ _ _ _ _ _ B2 B1 _ H) as [HB H'].
  pose proof (put_var_inj _ _ _ _ _ [] D2 D1 []) as HD. rewrite !app_nil_r in HD.
  destruct (HD H') as [-> _]. apply app_inj_len in HB as [_ HB]; [|reflexivity]. auto.
Qed.

Lemma hkdf_label_range label context len :
  (len < 65536 /\ blen label <= 249 /\ blen context <= 255 /\
   exists info, hkdf_label label context len = Ok info) \/
  ((65536 <= len \/ 249 < blen label \/ 255 < blen context) /\
   hkdf_label label context len = Err XOverflow).
Proof.
  unfold hkdf_label, put_var, to_bytes.
  change (256 ^ N.of_nat 2) with 65536. change (256 ^ N.of_nat 1) with 256.
  rewrite blen_app. change (blen tls13_prefix) with 6.
  destruct (len <? 65536) eqn:E1; cbn [rbind].
  - apply N.ltb_lt in E1. destruct (6 + blen label <? 256) eqn:E2; cbn [rbind].
    + apply N.ltb_lt in E2. destruct (blen context <? 256) eqn:E3; cbn [rbind].
      * apply N.ltb_lt in E3. left. repeat split; try lia. eauto.
      * apply N.ltb_ge in E3. right. split; [lia|reflexivity].
    + apply N.ltb_ge in E2. right. split; [lia|reflexivity].
  - apply N.ltb_ge in E1. right. split; [lia|reflexivity].
Qed.
Lemma hkdf_expand_label_uses C h secret label context len out :
  hkdf_expand_label C h secret label context len = Ok out ->
  exists info, hkdf_label label context len = Ok info /\ hkdf_expand C h secret info len = Ok out.
Proof. intros H. apply rbind_ok in H. exact H. Qed.
Lemma hkdf_expand_label_over C h secret label context len :
  65536 <= len \/ 249 < blen label \/ 255 < blen context ->
  hkdf_expand_label C h secret label context len = Err XOverflow.
Proof.
  intros H. unfold hkdf_expand_label.
  destruct (hkdf_label_range label context len) as [[? [? [? _]]]|[_ ->]]; [lia|reflexivity].
Qed.
Lemma hkdf_label_layout label context len info :
  hkdf_label label context len = Ok info ->
  info = [Nb (len / 256); Nb (len mod 256)]
         ++ Nb (blen label + 6) :: ascii_bytes "tls13 "%string ++ label
         ++ Nb (blen context) :: context.
Proof.
  intros H. destruct (hkdf_label_range label context len) as [[L1 [L2 [L3 _]]]|[_ E]]; [|congruence].
  unfold hkdf_label, put_var, to_bytes in H.
  change (256 ^ N.of_nat 2) with 65536 in H. change (256 ^ N.of_nat 1) with 256 in H.
  rewrite blen_app in H. change (blen tls13_prefix) with 6 in H.
  assert (len <? 65536 = true) as E1 by (apply N.ltb_lt; lia).
  assert (6 + blen label <? 256 = true) as E2 by (apply N.ltb_lt; lia).
  assert (blen context <? 256 = true) as E3 by (apply N.ltb_lt; lia).
  rewrite E1, E2, E3 in H. cbn [rbind] in H. inversion H; subst; clear H.
  cbn [be_bytes app].
  rewrite (N.mod_small (len / 256)) by (apply N.div_lt_upper_bound; lia).
  rewrite (N.mod_small (6 + blen label)) by lia. rewrite (N.mod_small (blen context)) by lia.
  rewrite (N.add_comm 6). reflexivity.
Qed.
