(* The key schedule with a pre-shared key, for every history of calls. *)
From Verif Require Import Base P_Base Iana Crypto Hkdf Cipher S_Utils P_Hkdf S_Keys P_Keys S_Hist S_Nonce Early S_Early P_Alert.
Local Open Scope string_scope.
Local Open Scope list_scope.
Local Open Scope N_scope.

Section sched.
Variable C : crypto.
Hypothesis Hs : hmac_sized C.
Hypothesis Hh : hash_sized C.
Variables (suite : N) (h : hashalg) (klen lim : N).
Hypothesis It : In (suite, (h, klen)) suite_table.
Hypothesis Il : In (suite, lim) limit_table.

Lemma e_hash : hash_of suite = h.
Proof using It. exact (proj1 (suite_of_hash _ _ _ It)). Qed.
Lemma e_lim : usage_limit suite = Some lim.
Proof using Il. exact (limit_table_usage _ _ Il). Qed.
Lemma derive_is secret label th : blen (ascii_bytes label) <= 249 -> blen th <= 255 ->
  derive_secret C h secret (ascii_bytes label) th = Ok (derived C h secret label th).
Proof using Hs.
  intros A B. destruct (derive_secret_total C h secret (ascii_bytes label) th Hs A B) as [b E].
  rewrite E. f_equal. exact (derive_secret_eq _ _ _ _ _ _ Hs E).
Qed.
Lemma key_iv_is secret : derive_key_and_iv C suite secret = Ok (traffic_key C h klen secret, traffic_iv C h secret).
Proof using Hs It.
  destruct (key_iv_total C suite secret Hs) as (k & iv & E). rewrite E.
  destruct (key_iv_eq _ _ _ _ _ _ _ Hs It E) as [-> ->]. reflexivity.
Qed.
Lemma iv_lt secret : of_bytes (traffic_iv C h secret) < 256 ^ 12.
Proof using Hs It. exact (key_iv _ _ _ _ _ (key_iv_is secret)). Qed.
Lemma empty_le : blen (hash_empty C h) <= 255.
Proof using Hh. clear It. unfold hash_empty. rewrite Hh. destruct h; lbl. Qed.

Definition salt_of (secret : bytes) : bytes := derived C h secret "derived" (cr_hash C h []).
Lemma extract_is ikm x : cs_suite x = suite -> cs_salt x <> [] ->
  extract_and_advance C ikm x = (Ok (cr_hmac C h (cs_salt x) ikm), cs_advance x (salt_of (cr_hmac C h (cs_salt x) ikm))).
Proof using Hs Hh It.
  intros Es Ns. unfold extract_and_advance. rewrite Es, e_hash, extract_eq by exact Ns.
  unfold l_derived. rewrite derive_is by first [lbl | exact empty_le]. reflexivity.
Qed.
Definition fresh_dir (secret : bytes) (d : dir) : dir :=
  mkDir (Some (traffic_key C h klen secret)) (Some (of_bytes (traffic_iv C h secret))) (Some (seq_new lim)) (d_epoch d + 1).
Lemma install_is secret d : install suite (traffic_key C h klen secret) (traffic_iv C h secret) d = (Ok tt, fresh_dir secret d).
Proof using Il. unfold install. rewrite e_lim. reflexivity. Qed.
Lemma install_both_is sc ss x : cs_suite x = suite ->
  install_both (traffic_key C h klen sc) (traffic_iv C h sc) (traffic_key C h klen ss) (traffic_iv C h ss) x =
  (Ok tt, cs_set_r (cs_set_w x (fresh_dir (match cs_side x with Client => sc | Server => ss end) (cs_w x)))
            (fresh_dir (match cs_side x with Client => ss | Server => sc end) (cs_r x))).
Proof using Il. intro Es. unfold install_both. rewrite Es. destruct (cs_side x); rewrite !install_is; reflexivity. Qed.

Lemma skip_is x : cs_suite x = suite -> cs_state x = 0 -> cs_salt x = zero_block h ->
  skip_early_secrets C x = (Ok tt, cs_advance x (salt_of (psk_early C h (zero_block h)))).
Proof using Hs Hh It.
  intros Es E0 Ez. unfold skip_early_secrets. rewrite E0. change (negb (0 =? 0)) with false. cbv iota.
  rewrite extract_is by (try exact Es; rewrite Ez; destruct h; discriminate). rewrite Ez, Es, e_hash. reflexivity.
Qed.
Definition kind_of (mode : String.string) : option psk_kind :=
  if String.eqb mode "external" then Some External else if String.eqb mode "resume" then Some Resumption else None.
Lemma early_is psk mode kind th x : cs_suite x = suite -> cs_state x = 0 -> cs_salt x = zero_block h ->
  blen th <= 255 -> kind_of mode = Some kind ->
  derive_early_secrets C psk mode th x =
  (Ok (binder_key C h kind psk, early_exporter C h psk th),
   let x1 := cs_advance x (salt_of (psk_early C h psk)) in
   cs_logs [("CLIENT_EARLY_TRAFFIC_SECRET", early_traffic C h psk th)]
     (match cs_side x with
      | Client => cs_set_w x1 (fresh_dir (early_traffic C h psk th) (cs_w x))
      | Server => cs_set_r x1 (fresh_dir (early_traffic C h psk th) (cs_r x)) end)).
Proof using Hs Hh It Il.
  intros Es E0 Ez L K. unfold derive_early_secrets. rewrite E0. change (negb (0 =? 0)) with false. cbv iota.
  unfold kind_of in K.
  assert (M : (mode = "external" /\ kind = External) \/ (mode = "resume" /\ kind = Resumption)).
  { destruct (String.eqb mode "external") eqn:E1; [apply String.eqb_eq in E1; injection K; intros; subst; auto|].
    destruct (String.eqb mode "resume") eqn:E2; [apply String.eqb_eq in E2; injection K; intros; subst; auto | discriminate]. }
  rewrite extract_is by (try exact Es; rewrite Ez; destruct h; discriminate). rewrite Ez, Es.
  change (cr_hmac C h (zero_block h) psk) with (psk_early C h psk).
  unfold derive_early. rewrite e_hash. unfold l_eexp, l_cet.
  destruct M as [[-> ->]|[-> ->]].
  all: match goal with |- context [if negb ?b then _ else _] => change (negb b) with false end; cbv iota zeta.
  - change (String.append (String.substring 0 3 "external") " binder") with "ext binder".
    rewrite !derive_is by first [lbl | exact empty_le | exact L]. cbn [rbind]. rewrite key_iv_is.
    unfold install_early. cbn [cs_side cs_suite cs_advance cs_w cs_r]. rewrite Es.
    fold (early_traffic C h psk th). destruct (cs_side x); rewrite install_is; reflexivity.
  - change (String.append (String.substring 0 3 "resume") " binder") with "res binder".
    rewrite !derive_is by first [lbl | exact empty_le | exact L]. cbn [rbind]. rewrite key_iv_is.
    unfold install_early. cbn [cs_side cs_suite cs_advance cs_w cs_r]. rewrite Es.
    fold (early_traffic C h psk th). destruct (cs_side x); rewrite install_is; reflexivity.
Qed.
Lemma hs_is psk shared th x : cs_suite x = suite -> cs_state x = 1 -> cs_salt x = salt_of (psk_early C h psk) -> blen th <= 255 ->
  exists fc fs log, derive_handshake_secrets C shared th x =
  (Ok tt, mkCs suite (cs_side x) 2 (salt_of (psk_handshake C h psk shared)) fc fs
            (fresh_dir (psk_hs_traffic C h (cs_side x) psk shared th) (cs_w x))
            (fresh_dir (psk_hs_traffic C h (other_side (cs_side x)) psk shared th) (cs_r x)) (cs_klog x ++ log)).
Proof using Hs Hh It Il.
  intros Es E1 Ez L. unfold derive_handshake_secrets. rewrite E1. change (negb (1 =? 1)) with false. cbv iota.
  rewrite extract_is by (try exact Es; rewrite Ez; apply derived_nonempty; exact Hs). rewrite Ez, Es.
  change (cr_hmac C h (salt_of (psk_early C h psk)) shared) with (psk_handshake C h psk shared).
  unfold derive_hs. rewrite e_hash. unfold l_chs, l_shs, l_finished.
  rewrite !derive_is by first [lbl | exact L]. cbn [rbind]. rewrite !derive_is by lbl. cbn [rbind].
  rewrite !key_iv_is. cbn [rbind h_cts h_sts h_cfin h_sfin h_ckey h_skey fst snd].
  rewrite install_both_is by exact Es. do 3 eexists. unfold cs_logs, cs_set_r, cs_set_w, cs_set_fin, cs_advance; cbn [cs_suite cs_side cs_state cs_salt cs_cfin cs_sfin cs_w cs_r cs_klog].  rewrite E1, Es. unfold psk_hs_traffic. destruct (cs_side x); reflexivity.
Qed.
Lemma ap_is psk shared a b x : cs_suite x = suite -> cs_state x = 2 -> cs_salt x = salt_of (psk_handshake C h psk shared) ->
  blen a <= 255 -> blen b <= 255 ->
  exists v fc fs log, derive_master_secrets C a b x =
  (Ok v, mkCs suite (cs_side x) 2 (cs_salt x) fc fs
            (fresh_dir (psk_ap_traffic C h (cs_side x) psk shared a) (cs_w x))
            (fresh_dir (psk_ap_traffic C h (other_side (cs_side x)) psk shared a) (cs_r x)) (cs_klog x ++ log)).
Proof using Hs Hh It Il.
  intros Es E1 Ez L L'. unfold derive_master_secrets. rewrite E1. change (negb (2 =? 2)) with false. cbv iota zeta.
  rewrite Es, e_hash, extract_eq by (rewrite Ez; apply derived_nonempty; exact Hs). rewrite Ez.
  change (cr_hmac C h (salt_of (psk_handshake C h psk shared)) (zeros (digest_size h))) with (psk_master C h psk shared).
  unfold derive_ap. rewrite e_hash. unfold l_cap, l_sap, l_exp, l_res.
  rewrite !derive_is by first [lbl | exact L | exact L']. cbn [rbind].
  rewrite !key_iv_is. cbn [rbind a_cts a_sts a_exp a_res a_ckey a_skey fst snd].
  rewrite install_both_is by exact Es. do 4 eexists. unfold cs_logs, cs_set_r, cs_set_w, cs_set_fin, cs_advance; cbn [cs_suite cs_side cs_state cs_salt cs_cfin cs_sfin cs_w cs_r cs_klog]. rewrite E1, Es, Ez. unfold psk_ap_traffic. destruct (cs_side x); reflexivity.
Qed.
End sched.
