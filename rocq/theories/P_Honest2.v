(* The keys of an honest handshake. *)
From Verif Require Import Base P_Base Iana Crypto Config Serial Ext Msg Hkdf Cipher Kex Sig Ocsp Transcript Conn S_Hist S_Conn S_Send S_Auth S_Keys S_Utils S_Nonce S_Deliver P_Monad P_Frame P_Send P_Wire P_Alert P_Keys P_Auth P_Deliver P_Honest.

(* a direction that protected [n] records *)
Definition loaded (lim n : N) (d : dir) : Prop :=
  exists k iv, d_key d = Some k /\ d_iv d = Some iv /\ iv < 256 ^ 12 /\ d_seq d = Some (mkSeq n lim).
Lemma limit_small s lim : usage_limit s = Some lim -> 10000 <= lim <= 18446744073709551616.
Proof.
  unfold usage_limit. destruct (_ || _); [intro H; injection H; intros <-; lia|]. destruct (_ =? _); [intro H; injection H; intros <-; lia | discriminate].
Qed.
Lemma loaded_ready s lim n d : usage_limit s = Some lim -> n < lim -> loaded lim n d -> ready d.
Proof.
  intros U L (k & iv & A & B & D & E). exists k, iv, (mkSeq n lim). split; [exact A|]. split; [exact B|]. split; [exact E|]. cbn [q_next q_limit].
  split; [exact L|]. change (256 ^ 12) with (2 ^ 96) in *. apply lxor_lt; [exact D|].
  pose proof (limit_small _ _ U). change (2 ^ 96) with 79228162514264337593543950336. lia.
Qed.
Lemma loaded_bump lim n d : loaded lim n d -> loaded lim (n + 1) (bump_dir d).
Proof. intros (k & iv & A & B & D & E). exists k, iv. unfold bump_dir. rewrite E. cbn. auto. Qed.
Lemma loaded_key lim n d : loaded lim n d -> opt_bool (d_key d) = true.
Proof. intros (k & iv & -> & _). reflexivity. Qed.

Lemma install_both_loaded ck civ sk siv x lim : usage_limit (cs_suite x) = Some lim ->
  of_bytes civ < 256 ^ 12 -> of_bytes siv < 256 ^ 12 ->
  exists x', install_both ck civ sk siv x = (Ok tt, x') /\ loaded lim 0 (cs_w x') /\ loaded lim 0 (cs_r x').
Proof.
  intros U L1 L2. unfold install_both, install. destruct (cs_side x); rewrite U; eexists; (split; [reflexivity|]);
  cbn [cs_w cs_r cs_set_r cs_set_w]; (split; [do 2 eexists | do 2 eexists]); cbn; repeat split; assumption.
Qed.
Lemma derive_hs_iv C suite secret th s : derive_hs C suite secret th = Ok s ->
  of_bytes (snd (h_ckey s)) < 256 ^ 12 /\ of_bytes (snd (h_skey s)) < 256 ^ 12.
Proof.
  unfold derive_hs. intro D. do 4 (destruct (derive_secret _ _ _ _ _); [|discriminate]; cbn [rbind] in D).
  destruct (derive_key_and_iv C suite _) as [[k1 v1]|] eqn:D1; [|discriminate]. cbn [rbind] in D.
  destruct (derive_key_and_iv C suite _) as [[k2 v2]|] eqn:D2 in D; [|discriminate]. cbn [rbind] in D.
  injection D; intros <-. apply key_iv in D1, D2. split; assumption.
Qed.
Lemma derive_ap_iv C suite secret th th' s : derive_ap C suite secret th th' = Ok s ->
  of_bytes (snd (a_ckey s)) < 256 ^ 12 /\ of_bytes (snd (a_skey s)) < 256 ^ 12.
Proof.
  unfold derive_ap. intro D. do 4 (destruct (derive_secret _ _ _ _ _); [|discriminate]; cbn [rbind] in D).
  destruct (derive_key_and_iv C suite _) as [[k1 v1]|] eqn:D1; [|discriminate]. cbn [rbind] in D.
  destruct (derive_key_and_iv C suite _) as [[k2 v2]|] eqn:D2 in D; [|discriminate]. cbn [rbind] in D.
  injection D; intros <-. apply key_iv in D1, D2. split; assumption.
Qed.

Lemma hs_cipher C we re suite sd lim : hmac_sized C -> hash_sized C -> usage_limit suite = Some lim ->
  exists x1, skip_early_secrets C (cs_new we re suite sd) = (Ok tt, x1) /\ cs_suite x1 = suite /\
    must_encrypt x1 = false /\ must_decrypt x1 = false /\
    forall shared th, blen th <= 255 -> exists x2,
      derive_handshake_secrets C shared th x1 = (Ok tt, x2) /\ cs_suite x2 = suite /\ cs_side x2 = sd /\
      handshake_keys C suite sd shared th x2 /\ loaded lim 0 (cs_w x2) /\ loaded lim 0 (cs_r x2).
Proof.
  intros Hs Hh U. destruct (skip_total C (cs_new we re suite sd) Hs Hh eq_refl) as (x1 & H1 & S1 & E1).
  change (cs_suite (cs_new we re suite sd)) with suite in E1.
  assert (D1 : cs_w x1 = dir_none we /\ cs_r x1 = dir_none re /\ cs_side x1 = sd).
  { unfold skip_early_secrets in H1. change (negb (cs_state (cs_new we re suite sd) =? 0)) with false in H1. cbv iota in H1.
    unfold extract_and_advance in H1. destruct (derive_secret _ _ _ _ _); [|discriminate]. pose proof (f_equal snd H1) as E. cbn [snd] in E.
    rewrite <- E. repeat split. }
  destruct D1 as (D1 & D2 & D3).
  exists x1. split; [exact H1|]. split; [exact E1|]. unfold must_encrypt, must_decrypt. rewrite D1, D2.
  split; [reflexivity|]. split; [reflexivity|]. intros shared th L.
  assert (X : exists x2, derive_handshake_secrets C shared th x1 = (Ok tt, x2) /\ loaded lim 0 (cs_w x2) /\ loaded lim 0 (cs_r x2)).
  { unfold derive_handshake_secrets, extract_and_advance. rewrite S1. change (negb (1 =? 1)) with false. cbv iota.
    destruct (derive_secret_total C (hash_of (cs_suite x1)) (hkdf_extract C (hash_of (cs_suite x1)) (cs_salt x1) shared) l_derived (hash_empty C (hash_of (cs_suite x1))) Hs) as [b ->];
      [vm_compute; discriminate | unfold hash_empty; rewrite Hh; destruct (hash_of _); vm_compute; discriminate |].
    destruct (derive_hs_total C (cs_suite x1) (hkdf_extract C (hash_of (cs_suite x1)) (cs_salt x1) shared) th Hs L) as [s Es]. rewrite Es.
    destruct (derive_hs_iv _ _ _ _ _ Es) as [L1 L2].
    match goal with |- context [install_both ?a ?b ?c ?d ?x] =>
      destruct (install_both_loaded a b c d x lim) as (x2 & -> & A & B); try assumption end;
      [cbn [cs_suite cs_set_fin cs_advance]; rewrite E1; exact U|].
    eexists. split; [reflexivity|]. split; [exact A | exact B]. }
  destruct X as (x2 & X1 & X2 & X3). exists x2. split; [exact X1|].
  assert (K : handshake_keys C suite sd shared th x2) by (exists we, re, x1, x2; split; [exact H1|]; split; [exact X1 | apply same_keys_refl]).
  assert (I : exists h klen, In (suite, (h, klen)) suite_table).
  { apply usage_limit_table in U. cbn [In limit_table] in U.
    destruct U as [E|[E|[E|[]]]]; pose proof (f_equal fst E) as E'; cbn [fst] in E'; rewrite <- E'; do 2 eexists; cbn; auto 8. }
  destruct I as (h & klen & I). destruct (handshake_keys_full C suite sd shared th x2 h klen Hs I K) as (_ & A1 & A2 & _). auto.
Qed.
Lemma ap_cipher C suite sd shared th x lim th_sf th_cf : hmac_sized C -> usage_limit suite = Some lim ->
  handshake_keys C suite sd shared th x -> cs_state x = 2 -> cs_suite x = suite -> blen th_sf <= 255 -> blen th_cf <= 255 ->
  exists v x3, derive_master_secrets C th_sf th_cf x = (Ok v, x3) /\ cs_suite x3 = suite /\
    application_keys C suite sd shared th th_sf x3 /\ loaded lim 0 (cs_w x3) /\ loaded lim 0 (cs_r x3).
Proof.
  intros Hs U K S2 Es L L'.
  assert (X : exists v x3, derive_master_secrets C th_sf th_cf x = (Ok v, x3) /\ cs_suite x3 = suite /\ loaded lim 0 (cs_w x3) /\ loaded lim 0 (cs_r x3)).
  { unfold derive_master_secrets. rewrite S2. change (negb (2 =? 2)) with false. cbv iota zeta.
    destruct (derive_ap_total C (cs_suite x) (hkdf_extract C (hash_of (cs_suite x)) (cs_salt x) (zeros (digest_size (hash_of (cs_suite x))))) th_sf th_cf Hs L L') as [s Ed]. rewrite Ed.
    destruct (derive_ap_iv _ _ _ _ _ _ Ed) as [L1 L2]. rewrite <- Es in U.
    destruct (install_both_loaded (fst (a_ckey s)) (snd (a_ckey s)) (fst (a_skey s)) (snd (a_skey s)) x lim U L1 L2) as (x3 & E & A & B).
    rewrite E. do 2 eexists. split; [reflexivity|]. cbn [cs_suite cs_w cs_r cs_set_fin cs_logs].
    apply install_both_keys in E. destruct E as (E & _). rewrite E. auto. }
  destruct X as (v & x3 & X1 & X2 & X3). exists v, x3. split; [exact X1|]. split; [exact X2|]. split; [|exact X3].
  exists x, th_cf, v, x3. split; [exact K|]. split; [exact X1 | apply same_keys_refl].
Qed.
Lemma bump_w_same x : same_keys x (bump_w x).
Proof. unfold same_keys, bump_w, bump_dir. destruct (d_seq (cs_w x)); cbn; repeat split. Qed.
Lemma bump_r_same x : same_keys x (bump_r x).
Proof. unfold same_keys, bump_r, bump_dir. destruct (d_seq (cs_r x)); cbn; repeat split. Qed.
Lemma hk_same' C suite sd shared th x y : same_keys x y -> handshake_keys C suite sd shared th x -> handshake_keys C suite sd shared th y.
Proof. intros S (we & re & x1 & x2 & A & B & D). exists we, re, x1, x2. split; [exact A|]. split; [exact B|]. eapply same_keys_trans; eassumption. Qed.
