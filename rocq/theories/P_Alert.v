(* Alerts. *)
From Verif Require Import Base P_Base Iana Crypto Config Serial Ext Msg Hkdf Cipher Kex Sig Ocsp Transcript Conn S_Hist S_Conn S_Send S_Nonce S_Alert P_Monad P_Frame P_Rec P_Buf P_Send P_Hist P_Wire P_Nonce.

(* both directions are always complete, but for the sequence of the suites
   without a limit *)
Definition dir_ok (suite : N) (d : dir) : Prop :=
  match d_key d with
  | None => d_seq d = None
  | Some _ => exists iv, d_iv d = Some iv /\ iv < 256 ^ 12 /\
      (forall lim, usage_limit suite = Some lim -> exists q, d_seq d = Some q /\ q_limit q = lim)
  end.
Definition ivI (c : conn) : Prop := match c_cipher c with None => True | Some x => dir_ok (cs_suite x) (cs_w x) /\ dir_ok (cs_suite x) (cs_r x) end.
Definition ivR (c c' : conn) : Prop := ivI c -> ivI c'.
Lemma ivI_same c c' : c_cipher c' = c_cipher c -> ivR c c'.
Proof. unfold ivR, ivI. intros ->. auto. Qed.
Ltac same_iv := intros; try match goal with |- ivR _ _ => intro end; eapply ivI_same; [| eassumption]; reflexivity.

Lemma expand_le C h prk info len b : hkdf_expand C h prk info len = Ok b -> len <> digest_size h -> blen b <= len.
Proof.
  unfold hkdf_expand. intros H N. apply N.eqb_neq in N. rewrite N in H.
  destruct (expand_loop _ _ _ _ _ _ _); [|discriminate]. cbn [rbind] in H. injection H; intros <-. rewrite blen_btake. lia.
Qed.
Lemma key_iv C suite secret k iv : derive_key_and_iv C suite secret = Ok (k, iv) -> of_bytes iv < 256 ^ 12.
Proof.
  unfold derive_key_and_iv. destruct (hkdf_expand_label C _ secret l_key [] _) as [k0|]; [|discriminate]. cbn [rbind].
  destruct (hkdf_expand_label C _ secret l_iv [] _) as [v|] eqn:E; [|discriminate]. cbn [rbind].
  intro H. injection H; intros <- _. unfold hkdf_expand_label in E. destruct (hkdf_label _ _ _) as [i|]; [|discriminate]. cbn [rbind] in E.
  apply expand_le in E; [|unfold hash_of; destruct (suite =? _); discriminate].
  eapply N.lt_le_trans; [apply of_bytes_lt|]. apply N.pow_le_mono_r; [lia|]. exact E.
Qed.
Lemma install_dir_ok s k iv d r d' : of_bytes iv < 256 ^ 12 -> install s k iv d = (r, d') -> dir_ok s d'.
Proof.
  intros L H. unfold install in H. destruct (usage_limit s) as [lim|] eqn:E; injection H; intros <- _;
  exists (of_bytes iv); (split; [reflexivity|]); (split; [exact L|]); intros lim' E'; [|congruence].
  eexists. split; [reflexivity|]. cbn. congruence.
Qed.
Lemma install_both_ok ck civ sk siv x r x' : of_bytes civ < 256 ^ 12 -> of_bytes siv < 256 ^ 12 ->
  install_both ck civ sk siv x = (r, x') -> dir_ok (cs_suite x) (cs_r x) ->
  dir_ok (cs_suite x') (cs_w x') /\ dir_ok (cs_suite x') (cs_r x').
Proof.
  intros Lc Ls H Dr. unfold install_both in H.
  set (t := match cs_side x with Client => (ck, civ, sk, siv) | Server => (sk, siv, ck, civ) end) in H.
  assert (Lt : of_bytes (snd (fst (fst t))) < 256 ^ 12 /\ of_bytes (snd t) < 256 ^ 12) by (subst t; destruct (cs_side x); split; assumption).
  destruct t as [[[wk wiv] rk] riv]. cbn [fst snd] in Lt. destruct Lt as [Lt Lt2].
  destruct (install (cs_suite x) wk wiv (cs_w x)) as [[[]|e] w] eqn:E; apply install_dir_ok in E; try exact Lt.
  - destruct (install (cs_suite x) rk riv (cs_r x)) as [[[]|e] rr] eqn:E2; apply install_dir_ok in E2; try exact Lt2;
    injection H; intros <- _; split; assumption.
  - injection H; intros <- _; split; assumption.
Qed.
Lemma dir_ok_le s d d' : dir_le d d' -> dir_ok s d -> dir_ok s d'.
Proof.
  intros (K & Iv & _ & Q). unfold dir_ok. rewrite K, Iv. destruct (d_key d).
  - intros (iv & A & B & D). exists iv. split; [exact A|]. split; [exact B|]. intros lim L.
    destruct (D lim L) as (q & Eq & El). rewrite Eq in Q. destruct (d_seq d') as [q'|]; [|destruct Q].
    exists q'. split; [reflexivity|]. destruct Q. congruence.
  - intro E. rewrite E in Q. destruct (d_seq d'); [destruct Q | reflexivity].
Qed.
Lemma iv_send C k : rel ivR (send_content C k).
Proof.
  intros c H. destruct (sending_content C k c) as (_ & W & _). unfold ivI in *.
  destruct (c_cipher c) as [x|], (c_cipher (snd (send_content C k c))) as [y|]; cbn in W; try tauto.
  destruct W as [-> W]. cbn. split; [eapply dir_ok_le; [exact W | apply H] | apply H].
Qed.
Lemma ivR_stable C : stable C ivR.
Proof.
  split; try exact (impl_preorder ivI); try (same_iv).
  - intros exts c. apply ivI_same; unfold client_neg_mfl; rewrite bind_get;
    (destruct (ext_get MAX_FRAGMENT_LENGTH exts) as [[]|]; try reflexivity;
      [destruct (mfl_octets code); [|reflexivity]; destruct (negb _); [reflexivity|]|];
      unfold upd_nc; rewrite bind_get; destruct (c_nc c); reflexivity).
  - intros exts c. apply ivI_same; unfold server_neg_mfl; rewrite bind_get;
    (destruct (ext_get MAX_FRAGMENT_LENGTH exts) as [[]|]; try reflexivity;
      [destruct (mfl_octets code); [|reflexivity]|];
      unfold upd_nc, bind, get; destruct (c_nc c); reflexivity).
  - intros. unfold transcribe. reli (impl_preorder ivI); [apply rel_on_tr | apply rel_modify]; same_iv.
  - intros. apply rel_on_tr; same_iv.
  - intros. apply rel_on_tr; same_iv.
  - intros. apply rel_modify. intros c _. split; reflexivity.
  - apply (rel_on_cipher _ (impl_preorder _)). intros x c Ex G. unfold ivI in *. rewrite Ex in G. cbn.
    unfold skip_early_secrets. destruct (negb _); [exact G|].
    destruct (extract_and_advance C _ x) as [[?|?] x1] eqn:E; apply extract_w in E; cbn; destruct E as (-> & -> & -> & _); exact G.
  - intros a b. apply (rel_on_cipher _ (impl_preorder _)). intros x c Ex G. unfold ivI in *. rewrite Ex in G. cbn.
    unfold derive_handshake_secrets. destruct (negb _); [exact G|].
    destruct (extract_and_advance C _ x) as [[secret|?] x1] eqn:E; apply extract_w in E; destruct E as (E1 & E2 & E3 & _); [|cbn; rewrite E1, E2, E3; exact G].
    destruct (derive_hs C (cs_suite x) secret b) as [s|] eqn:D; [|cbn; rewrite E1, E2, E3; exact G].
    assert (L : of_bytes (snd (h_ckey s)) < 256 ^ 12 /\ of_bytes (snd (h_skey s)) < 256 ^ 12).
    { unfold derive_hs in D. do 4 (destruct (derive_secret _ _ _ _ _); [|discriminate]; cbn [rbind] in D).
      destruct (derive_key_and_iv _ _ _) as [[k1 i1]|] eqn:D1; [|discriminate]. cbn [rbind] in D.
      destruct (derive_key_and_iv _ _ _) as [[k2 i2]|] eqn:D2 in D; [|discriminate]. cbn [rbind] in D.
      injection D; intros <-. cbn. split; eapply key_iv; eassumption. }
    destruct (install_both _ _ _ _ _) as [[?|?] x'] eqn:I; (apply install_both_ok in I; try apply L; [exact I|]); cbn; rewrite E1, E3; apply G.
  - intros a b. apply (rel_on_cipher _ (impl_preorder _)). intros x c Ex G. unfold ivI in *. rewrite Ex in G. cbn.
    unfold derive_master_secrets. destruct (negb _); [exact G|].
    destruct (derive_ap _ _ _ _ _) as [s|] eqn:D; [|exact G].
    assert (L : of_bytes (snd (a_ckey s)) < 256 ^ 12 /\ of_bytes (snd (a_skey s)) < 256 ^ 12).
    { unfold derive_ap in D. do 4 (destruct (derive_secret _ _ _ _ _); [|discriminate]; cbn [rbind] in D).
      destruct (derive_key_and_iv _ _ _) as [[k1 i1]|] eqn:D1; [|discriminate]. cbn [rbind] in D.
      destruct (derive_key_and_iv _ _ _) as [[k2 i2]|] eqn:D2 in D; [|discriminate]. cbn [rbind] in D.
      injection D; intros <-. cbn. split; eapply key_iv; eassumption. }
    destruct (install_both _ _ _ _ x) as [[?|?] x'] eqn:I; apply install_both_ok in I; try apply L; try exact I; apply G.
  - intros a b. apply (rel_on_cipher _ (impl_preorder _)). intros x c Ex G. unfold ivI in *. rewrite Ex in G. cbn.
    destruct (decrypt C a b x) as [r x'] eqn:D. apply decrypt_read in D. destruct D as [-> D].
    cbn. split; [apply G | eapply dir_ok_le; [exact D | apply G]].
  - apply iv_send.
Qed.
Lemma ivI_run C ops c : ivI c -> ivI (run C ops c).
Proof. revert ops c. apply keeps_run. intro o. apply of_rel. apply (stable_step C ivR o (ivR_stable C)); same_iv. Qed.
Lemma reachable_iv C g c : reachable C g c -> ivI c.
Proof.
  intros (c0 & ops & H & ->). apply ivI_run. apply created_cases in H.
  destruct H as [(_ & host & ocsp & unique & rng & t & -> & _) | (_ & ocsp & unique & rng & t & -> & _)]; exact I.
Qed.
Lemma raises_rel C R c e c' : stable C R -> rel R (receive_one C) -> raises C c e c' -> R c c'.
Proof.
  intros S Ro H. pose proof (st_pre C R S) as P. induction H as [c e c' H|c c1 e c' H _ IH].
  - specialize (Ro c). rewrite H in Ro. exact Ro.
  - specialize (Ro c). rewrite H in Ro. eapply P; eassumption.
Qed.
Lemma limit_table_usage s lim : In (s, lim) limit_table -> usage_limit s = Some lim.
Proof. intros [H|[H|[H|[]]]]; injection H; intros <- <-; reflexivity. Qed.
Lemma lxor_lt a b n : a < 2 ^ n -> b < 2 ^ n -> N.lxor a b < 2 ^ n.
Proof.
  intros A B. destruct (N.eq_dec (N.lxor a b) 0) as [->|Nz]; [apply N.neq_0_lt_0, N.pow_nonzero; lia|].
  apply N.log2_lt_pow2; [lia|].
  eapply N.le_lt_trans; [apply N.log2_lxor|].
  destruct (N.eq_dec a 0) as [->|Na]; [|destruct (N.eq_dec b 0) as [->|Nb]].
  - rewrite N.max_r by (cbn; lia). destruct (N.eq_dec b 0) as [->|Nb]; [rewrite N.lxor_0_l in Nz; lia|]. apply N.log2_lt_pow2; lia.
  - rewrite N.max_l by (cbn; lia). apply N.log2_lt_pow2; lia.
  - apply N.max_lub_lt; apply N.log2_lt_pow2; lia.
Qed.

(* a fatal alert is one record *)
Lemma alert_ser C code : code < 256 -> ser_content C (KAlert FATAL code) = Ok [x02; Nb code].
Proof.
  intro L. cbn [ser_content]. rewrite to_bytes_lt by (change (256 ^ N.of_nat 2) with 65536; unfold FATAL; lia).
  rewrite <- (be_of_bytes [x02; Nb code]). do 2 f_equal. cbn [length]. f_equal. unfold of_bytes, FATAL. cbn [fold_left].
  rewrite bN_Nb by exact L. reflexivity.
Qed.
Lemma encrypt_goes C c x ct f : aead_sized C -> valid_mfl (max_frag c) -> ivI c -> room c -> c_cipher c = Some x -> enc_on c = true ->
  blen f + 1 + tag_length (cs_suite x) <= max_frag c ->
  exists s c1, encrypt_fragment C ct (max_frag c) f c =
      (Ok (cr_seal C (cs_suite x) (se_key s) (se_nonce s) (se_data s) (se_aad s)), c1) /\
    c_out c1 = c_out c /\ se_data s = inner_bytes ct (max_frag c) (tag_length (cs_suite x)) f /\
    blen (cr_seal C (cs_suite x) (se_key s) (se_nonce s) (se_data s) (se_aad s)) < 65536.
Proof.
  intros As V Iv Rm Ex En Lf. pose proof (valid_mfl_range _ V) as Vr.
  destruct (Rm x Ex En) as (lim & Ilim & Hq).
  unfold enc_on in En. rewrite Ex in En.
  apply limit_table_usage in Ilim. unfold ivI in Iv. rewrite Ex in Iv. destruct Iv as [Iv _]. unfold dir_ok in Iv. unfold must_encrypt in En.
  destruct (d_key (cs_w x)) as [k|] eqn:Ek; [|discriminate].
  destruct Iv as (iv & Eiv & Liv & Q). destruct (Q lim Ilim) as (q & Eq & El). specialize (Hq q Eq).
  assert (Tl : tag_len c = tag_length (cs_suite x)) by (unfold tag_len; rewrite Ex; reflexivity).
  assert (En1 : exists n w, next_nonce (cs_w x) = (Ok n, w)).
  { unfold next_nonce. rewrite Eiv, Eq. unfold seq_next. rewrite El. apply N.ltb_lt in Hq as Hq'. rewrite Hq'.
    assert (Ln : N.lxor iv (q_next q) < 256 ^ N.of_nat 12).
    { change (256 ^ N.of_nat 12) with (2 ^ 96). change (256 ^ 12) with (2 ^ 96) in *. apply lxor_lt; [exact Liv|].
      assert (lim <= 18446744073709551616).
      { unfold usage_limit in Ilim. destruct (_ || _); [injection Ilim; intros <-; lia|]. destruct (_ =? _); [injection Ilim; intros <-; lia | discriminate]. }
      change (2 ^ 96) with 79228162514264337593543950336. lia. }
    rewrite (to_bytes_lt 12) by exact Ln. eauto. }
  destruct En1 as (n & w & En1).
  unfold encrypt_fragment. rewrite bind_get. cbv zeta. rewrite Tl.
  set (data := inner_bytes ct (max_frag c) (tag_length (cs_suite x)) f).
  assert (Ld : blen data + tag_length (cs_suite x) < 65536).
  { unfold data. rewrite blen_inner. pose proof (tag_small (cs_suite x)).
    pose proof (pad_bound (max_frag c) (tag_length (cs_suite x)) (blen f) V Lf). lia. }
  rewrite (to_bytes_lt 2) by exact Ld.
  change (bind (lift (Ok ?v)) ?k c) with (k v c). cbv beta.
  set (aad := _ :: _ :: _ :: _).
  exists (mkSealing (cs_suite x) (d_epoch (cs_w x)) k n data aad). eexists.
  unfold bind at 1. unfold on_cipher. rewrite bind_get. rewrite Ex. unfold encrypt. rewrite Ek, En1.
  cbn [se_key se_nonce se_data se_aad]. unfold bind, modify, ret, lift.
  rewrite As, N.eqb_refl. split; [reflexivity|]. split; [reflexivity|]. split; [reflexivity|]. exact Ld.
Qed.
Lemma record_bytes_eq ty f : blen f < 65536 -> record_bytes ty f = Ok (record ty f).
Proof. intro L. unfold record_bytes. rewrite to_bytes_lt by exact L. reflexivity. Qed.
Lemma alert_goes C code c : aead_sized C -> valid_mfl (max_frag c) -> ivI c -> room c -> can_send (c_state c) = true -> code < 256 ->
  exists c', fail C (Some code) c = (Ok tt, c') /\ c_state c' = Failed /\
    exists r, alert_record C code r /\ c_out c' = c_out c ++ r.
Proof.
  intros As V Iv Rm Cs L. pose proof (valid_mfl_range _ V) as Vr.
  assert (S : exists c' r, send_content C (KAlert FATAL code) c = (Ok tt, c') /\ alert_record C code r /\ c_out c' = c_out c ++ r).
  { unfold send_content. rewrite bind_get. cbn [content_type]. change (CT_ALERT =? CT_APPDATA) with false. cbn [andb].
    rewrite Cs. cbn [negb]. rewrite (alert_ser C code L).
    change (bind (lift (Ok [x02; Nb code])) ?k c) with (k [x02; Nb code] c). cbv beta.
    change (bind (ret tt) ?k c) with (k tt c). cbv beta. rewrite bind_get.
    assert (Lim : 2 <= fragment_limit c).
    { unfold fragment_limit, tag_len, enc_on. destruct (c_cipher c) as [x|]; [|lia].
      pose proof (tag_small (cs_suite x)). destruct (must_encrypt x); lia. }
    unfold fragments_of. change (blen [x02; Nb code]) with 2. apply N.leb_le in Lim. rewrite Lim.
    change (bind (lift (Ok [[x02; Nb code]])) ?k c) with (k [[x02; Nb code]] c). cbv beta.
    assert (F : exists r c1, send_fragments C CT_ALERT (max_frag c) [[x02; Nb code]] c = (Ok (r ++ []), c1) /\
              alert_record C code r /\ c_out c1 = c_out c).
    { cbn [send_fragments]. rewrite bind_get. destruct (enc_on c) eqn:En.
      - pose proof En as En'. apply enc_on_inv in En'. destruct En' as (x & Ex & Em). pose proof (tag_small (cs_suite x)).
        destruct (encrypt_goes C c x CT_ALERT [x02; Nb code] As V Iv Rm Ex En) as (s & c1 & E1 & E2 & E3 & E4).
        { change (blen [x02; Nb code]) with 2. lia. }
        exists (sealed_record C (cs_suite x) s), c1. split; [|split; [|exact E2]].
        + unfold bind at 1. unfold bind at 1. rewrite E1. unfold lift. rewrite record_bytes_eq by exact E4. reflexivity.
        + right. exists (cs_suite x), s. split; [reflexivity|]. rewrite E3. eexists. unfold inner_bytes, zeros. reflexivity.
      - exists (record CT_ALERT [x02; Nb code]), c. unfold bind at 1, lift. rewrite record_bytes_eq by reflexivity.
        split; [reflexivity|]. split; [left; reflexivity | reflexivity]. }
    destruct F as (r & c1 & F & A & O). unfold bind. rewrite F. eexists. exists r. split; [reflexivity|]. split; [exact A|].
    cbn. rewrite O, app_nil_r. reflexivity. }
  destruct S as (c' & r & S & A & O). exists (cset_state Failed c'). split; [unfold fail, bind; rewrite S; reflexivity|]. split; [reflexivity|].
  exists r. split; [exact A | exact O].
Qed.

Lemma alert_code e : match alert_of e with Some code => code | None => INTERNAL_ERROR end = alert_for e.
Proof. destruct e; try reflexivity. cbn. destruct (code <? 256); reflexivity. Qed.
Lemma alert_for_lt e : alert_for e < 256.
Proof. destruct e; try reflexivity. cbn. destruct (code <? 256) eqn:E; [apply N.ltb_lt; exact E | reflexivity]. Qed.
Lemma raises_loops C c e c' c2 : raises C c e c' -> fail C (Some (alert_for e)) c' = (Ok tt, c2) -> loops C c (Err e, c2).
Proof.
  intros H F. induction H as [c e c' H|c c1 e c' H _ IH].
  - apply loops_err. unfold guarded. rewrite H, alert_code, F. reflexivity.
  - eapply loops_more; [unfold guarded; rewrite H; reflexivity | apply IH; exact F].
Qed.
Lemma loops_raises C c x : loops C c x -> forall e c', x = (Err e, c') ->
  exists e1 c1, raises C c e1 c1 /\
   (e = e1 /\ fail C (Some (alert_for e1)) c1 = (Ok tt, c') \/ fail C (Some (alert_for e1)) c1 = (Err e, c')).
Proof.
  intro H. induction H as [c c1 H|c e c1 H|c c1 x H _ IH]; intros e0 c' E.
  - discriminate.
  - injection E; intros <- <-. unfold guarded in H. destruct (receive_one C c) as [[b|er] c2] eqn:O; [discriminate|].
    rewrite alert_code in H. exists er, c2. split; [apply raises_now; exact O|].
    destruct (fail C (Some (alert_for er)) c2) as [[[]|e2] c3]; injection H; intros <- <-; auto.
  - destruct (IH e0 c' E) as (e1 & c2 & R & D). exists e1, c2. split; [|exact D].
    eapply raises_later; [|exact R]. unfold guarded in H. destruct (receive_one C c) as [[b|er] c3]; [exact H|].
    destruct (fail C _ c3) as [[?|?] ?]; discriminate.
Qed.
Lemma receive_alert C g c d e c1 : aead_sized C -> reachable C g c -> can_receive (c_state c) = true -> d <> [] ->
  raises C (cset_in (c_in c ++ d) c) e c1 -> can_send (c_state c1) = true -> room c1 ->
  exists c', receive_data C d c = (Err e, c') /\ c_state c' = Failed /\
    exists r, alert_record C (alert_for e) r /\ c_out c' = c_out c1 ++ r.
Proof.
  intros As R Cr D H Cs Rm. pose proof (alert_for_lt e) as L.
  assert (V : valid_mfl (max_frag c1)).
  { apply mfl_good_max. apply (raises_rel C mflR _ e c1 (mflR_stable C)) in H.
    - apply H. destruct R as (c0 & ops & Z & ->). apply mfl_good_run. eapply created_mfl. exact Z.
    - apply (stable_receive_one C mflR (mflR_stable C)); intros; exact (fun H => H). }
  assert (Iv : ivI c1).
  { apply (raises_rel C ivR _ e c1 (ivR_stable C)) in H.
    - apply H. apply reachable_iv in R. exact R.
    - apply (stable_receive_one C ivR (ivR_stable C)); intros; exact (fun H => H). }
  destruct (alert_goes C (alert_for e) c1 As V Iv Rm Cs L) as (c' & F & S & r & A & O).
  exists c'. destruct (receive_data_loops C d c D Cr) as (x & Lx & X1 & X2).
  rewrite (loops_fun _ _ _ Lx _ (raises_loops _ _ _ _ _ H F)) in X1, X2. cbn [fst snd] in X1, X2.
  specialize (X2 e eq_refl). destruct (receive_data C d c) as [r0 c0]. cbn [fst snd] in X1, X2. subst r0 c0.
  split; [reflexivity|]. split; [exact S|]. exists r. split; assumption.
Qed.
Lemma receive_error C c d e c' : can_receive (c_state c) = true -> d <> [] -> receive_data C d c = (Err e, c') ->
  (exists e1 c1, raises C (cset_in (c_in c ++ d) c) e1 c1 /\ (e = e1 \/ fail C (Some (alert_for e1)) c1 = (Err e, c'))) \/
  loops C (cset_in (c_in c ++ d) c) (Ok tt, c').
Proof.
  intros Cr D H. destruct (receive_data_loops C d c D Cr) as ([[[]|e1] c1] & Lx & X1 & X2); rewrite H in X1, X2; cbn [fst snd] in X1, X2; subst c1.
  - right. exact Lx.
  - left. specialize (X2 e1 eq_refl). injection X2; intros ->.
    destruct (loops_raises _ _ _ Lx _ _ eq_refl) as (e2 & c2 & R & [[-> F]|F]); eauto.
Qed.
Lemma raises_fst C c e : fst (receive_one C c) = Err e -> raises C c e (snd (receive_one C c)).
Proof. intro H. apply raises_now. rewrite <- H. apply surjective_pairing. Qed.
Lemma receive_fst C d c r : fst (receive_data C d c) = r -> receive_data C d c = (r, snd (receive_data C d c)).
Proof. intros <-. apply surjective_pairing. Qed.

(* --- reading a record ---------------------------------------------------- *)
Lemma next_nonce_goes s d lim q : dir_ok s d -> d_key d <> None -> In (s, lim) limit_table -> d_seq d = Some q -> q_next q < lim ->
  exists n, rfc_nonce d = Some n /\
    next_nonce d = (Ok n, mkDir (d_key d) (d_iv d) (Some (mkSeq (q_next q + 1) (q_limit q))) (d_epoch d)) /\ q_limit q = lim.
Proof.
  intros D K Il Eq Lq. apply limit_table_usage in Il. unfold dir_ok in D. destruct (d_key d) as [k|] eqn:Ek; [|congruence].
  destruct D as (iv & Eiv & Liv & Q). destruct (Q lim Il) as (q' & Eq' & El). rewrite Eq in Eq'. injection Eq'; intros <-.
  unfold rfc_nonce, next_nonce. rewrite Eiv, Eq. eexists. split; [reflexivity|]. split; [|exact El].
  unfold seq_next. rewrite El. apply N.ltb_lt in Lq as Lq'. rewrite Lq', Ek.
  rewrite (to_bytes_lt 12); [reflexivity|].
  change (256 ^ N.of_nat 12) with (2 ^ 96). change (256 ^ 12) with (2 ^ 96) in *. apply lxor_lt; [exact Liv|].
  assert (lim <= 18446744073709551616).
  { unfold usage_limit in Il. destruct (_ || _); [injection Il; intros <-; lia|]. destruct (_ =? _); [injection Il; intros <-; lia | discriminate]. }
  change (2 ^ 96) with 79228162514264337593543950336. lia.
Qed.
Lemma skip_ccs_other b : hd x00 b <> x14 -> skip_ccs b = b.
Proof. destruct b as [|[]]; intro H; try reflexivity. destruct (H eq_refl). Qed.
Lemma record_head ty p rest : ty < 256 -> ty <> CT_CCS -> skip_ccs (record ty p ++ rest) = record ty p ++ rest.
Proof.
  intros L N. apply skip_ccs_other. cbn. intro E. apply (f_equal bN) in E. rewrite bN_Nb in E by exact L. apply N. exact E.
Qed.
Lemma record_parts ty p rest : blen p < 65536 ->
  record_length (record ty p ++ rest) = blen p /\ btake (blen p) (bdrop 5 (record ty p ++ rest)) = p /\
  bdrop (blen p + 5) (record ty p ++ rest) = rest /\ blen (record ty p ++ rest) = 5 + blen p + blen rest /\
  btake 5 (record ty p ++ rest) = Nb ty :: x03 :: x03 :: be_bytes 2 (blen p) /\
  btake 1 (record ty p ++ rest) = [Nb ty].
Proof.
  intro L.
  assert (E : record ty p ++ rest = (Nb ty :: x03 :: x03 :: be_bytes 2 (blen p)) ++ p ++ rest).
  { unfold record. cbn [app]. rewrite <- app_assoc. reflexivity. }
  assert (L5 : blen (Nb ty :: x03 :: x03 :: be_bytes 2 (blen p)) = 5).
  { rewrite !blen_cons, blen_be_bytes. reflexivity. }
  split.
  - unfold record_length. rewrite E. change ((Nb ty :: x03 :: x03 :: be_bytes 2 (blen p)) ++ p ++ rest)
      with ([Nb ty; x03; x03] ++ be_bytes 2 (blen p) ++ p ++ rest).
    rewrite (bdrop_app_exact' _ [Nb ty; x03; x03]) by reflexivity.
    rewrite (btake_app_exact' _ (be_bytes 2 (blen p))) by (rewrite blen_be_bytes; reflexivity).
    apply of_be_bytes. exact L.
  - split; [|split; [|split; [|split]]].
    + rewrite E, (bdrop_app_exact' _ (Nb ty :: _)) by (symmetry; exact L5). apply btake_app_exact.
    + rewrite E. rewrite app_assoc. apply bdrop_app_exact'. rewrite blen_app, L5. lia.
    + rewrite E, !blen_app, L5. lia.
    + rewrite E. apply btake_app_exact'. symmetry; exact L5.
    + rewrite E. change ((Nb ty :: x03 :: x03 :: be_bytes 2 (blen p)) ++ p ++ rest)
        with ([Nb ty] ++ (x03 :: x03 :: be_bytes 2 (blen p)) ++ p ++ rest). apply btake_app_exact'. reflexivity.
Qed.
Definition bumped (x : cs) : cs :=
  cs_set_r x (mkDir (d_key (cs_r x)) (d_iv (cs_r x))
    (match d_seq (cs_r x) with Some q => Some (mkSeq (q_next q + 1) (q_limit q)) | None => None end) (d_epoch (cs_r x))).
Definition header (p : bytes) : bytes := Nb CT_APPDATA :: x03 :: x03 :: be_bytes 2 (blen p).
Lemma read_protected C c x p rest : ivI c -> c_cipher c = Some x -> dec_on c = true -> room_r c ->
  valid_mfl (max_frag c) -> blen p <= max_frag c + 256 -> c_in c = record CT_APPDATA p ++ rest ->
  exists k n, d_key (cs_r x) = Some k /\ rfc_nonce (cs_r x) = Some n /\
    read_next_record C c =
    (let c1 := cset_cipher (Some (bumped x)) (cset_in rest c) in
     match cr_open C (cs_suite x) k n p (header p) with
     | None => (Err (XAlert DECRYPT_ERROR), c1)
     | Some inner =>
       match inner_plaintext inner with
       | Err e => (Err e, c1)
       | Ok (ct, f) => if ct =? CT_CCS then (Err (XAlert UNEXPECTED_MESSAGE), c1) else (Ok (Some (ct, f)), c1)
       end
     end).
Proof.
  intros Iv Ex Dn Rm V Lp Ei. pose proof (valid_mfl_range _ V) as Vr.
  destruct (Rm x Ex Dn) as (lim & Il & Hq). unfold ivI in Iv. rewrite Ex in Iv. destruct Iv as [_ Iv].
  unfold dec_on in Dn. rewrite Ex in Dn. unfold must_decrypt in Dn.
  destruct (d_key (cs_r x)) as [k|] eqn:Ek; [|discriminate].
  assert (exists q, d_seq (cs_r x) = Some q) as (q & Eq).
  { pose proof Iv as D. unfold dir_ok in D. rewrite Ek in D. destruct D as (iv & _ & _ & Q).
    apply limit_table_usage in Il. destruct (Q lim Il) as (q & Eq & _). eauto. }
  destruct (next_nonce_goes (cs_suite x) (cs_r x) lim q Iv) as (n & Nn & Nx & _); try assumption; [congruence | apply Hq; exact Eq|].
  exists k, n. split; [reflexivity|]. split; [exact Nn|]. cbv zeta.
  rewrite read_record_eq. cbv zeta.
  destruct (record_parts CT_APPDATA p rest) as (P1 & P2 & P3 & P4 & P5 & P6); [lia|].
  rewrite Ei, record_head by (reflexivity || discriminate). rewrite P4, P1.
  assert (5 + blen p + blen rest <? 5 = false) as -> by (apply N.ltb_ge; lia).
  assert (Dn' : dec_on c = true) by (unfold dec_on; rewrite Ex; unfold must_decrypt; rewrite Ek; reflexivity).
  unfold rec_max. rewrite Dn'.
  assert (max_frag c + 256 <? blen p = false) as -> by (apply N.ltb_ge; lia).
  assert (5 + blen p + blen rest - 5 <? blen p = false) as -> by (apply N.ltb_ge; lia).
  unfold unprotect. rewrite bind_get. cbv zeta. rewrite P1, P2, P3, P5.
  change (dec_on (cset_in rest c)) with (dec_on c). rewrite Dn'. fold (header p).
  unfold bind, on_cipher, get, modify, lift. unfold bind, lift. cbn [c_cipher cset_in]. rewrite Ex.
  unfold decrypt. rewrite Ek, Nx.
  assert (B : cs_set_r x (mkDir (d_key (cs_r x)) (d_iv (cs_r x)) (Some (mkSeq (q_next q + 1) (q_limit q))) (d_epoch (cs_r x))) = bumped x).
  { unfold bumped. rewrite Eq. reflexivity. }
  rewrite B. destruct (cr_open C (cs_suite x) k n p (header p)) as [inner|]; [|reflexivity].
  destruct (inner_plaintext inner) as [[ct f]|e]; reflexivity.
Qed.
Lemma forged C g c x p rest : aead_sized C -> reachable C g c -> idle c -> can_receive (c_state c) = true -> can_send (c_state c) = true ->
  c_cipher c = Some x -> dec_on c = true -> room c -> room_r c -> blen p <= max_frag c + 256 ->
  (forall k n, d_key (cs_r x) = Some k -> rfc_nonce (cs_r x) = Some n -> cr_open C (cs_suite x) k n p (header p) = None) ->
  exists c', receive_data C (record CT_APPDATA p ++ rest) c = (Err (XAlert DECRYPT_ERROR), c') /\ c_state c' = Failed /\
    c_app c' = c_app c /\
    exists r, alert_record C DECRYPT_ERROR r /\ c_out c' = c_out c ++ r.
Proof.
  intros As R [Id1 Id2] Cr Cs Ex Dn Rm Rr Lp F.
  set (d := record CT_APPDATA p ++ rest). set (c0 := cset_in (c_in c ++ d) c).
  pose proof (reachable_iv _ _ _ R) as Iv. pose proof (reachable_mfl _ _ _ R) as V.
  destruct (read_protected C c0 x p rest Iv Ex Dn Rr V Lp) as (k & n & Ek & En & Er).
  { cbn. rewrite Id1. reflexivity. }
  cbv zeta in Er. rewrite (F k n Ek En) in Er.
  set (c1 := cset_cipher (Some (bumped x)) (cset_in rest c0)) in Er.
  assert (Ra : raises C c0 (XAlert DECRYPT_ERROR) c1).
  { apply raises_now. unfold receive_one, read_next_content, bind. rewrite Er. reflexivity. }
  destruct (receive_alert C g c d (XAlert DECRYPT_ERROR) c1 As R Cr) as (c' & H1 & H2 & r & A & O); try assumption; try reflexivity; try discriminate.
  { intros y Ey Eny. unfold c1 in Ey. cbn in Ey. injection Ey; intros <-. apply (Rm x Ex).
    unfold enc_on in *. rewrite Ex. cbn in Eny. exact Eny. }
  exists c'. split; [exact H1|]. split; [exact H2|]. split; [|exists r; split; [exact A | exact O]].
  destruct (receive_data_app C d c) as (l & Hl & Ha); [discriminate | exact Cr|]. rewrite H1 in Ha. cbn [snd] in Ha. rewrite Ha.
  assert (l = []) as ->; [|cbn; apply app_nil_r].
  apply (handles_fun _ _ _ Hl). eapply handles_bad. unfold read_next_content, bind. fold c0. rewrite Er. reflexivity.
Qed.
Lemma parse_alert_eq C pct b : parse_content C pct CT_ALERT [x02; b] = Ok (KAlert FATAL (bN b)).
Proof. destruct b; reflexivity. Qed.
Lemma echoed C g c code : aead_sized C -> reachable C g c -> idle c -> can_receive (c_state c) = true -> can_send (c_state c) = true ->
  dec_on c = false -> room c -> memN code alert_descriptions = true -> code <> CLOSE_NOTIFY -> code <> USER_CANCELED ->
  exists c', receive_data C (record CT_ALERT [x02; Nb code]) c = (Err (XAlert code), c') /\ c_state c' = Failed /\
    exists r, alert_record C code r /\ c_out c' = c_out c ++ r.
Proof.
  intros As R [Id1 Id2] Cr Cs Dn Rm Mc N1 N2. set (d := record CT_ALERT [x02; Nb code]). set (c0 := cset_in (c_in c ++ d) c).
  pose proof (reachable_mfl _ _ _ R) as V. pose proof (valid_mfl_range _ V) as Vr.
  assert (Lc : code < 256).
  { unfold memN in Mc. apply existsb_exists in Mc. destruct Mc as (z & Iz & Ez). apply N.eqb_eq in Ez. subst z.
    unfold alert_descriptions in Iz. cbn in Iz. repeat (destruct Iz as [<-|Iz]; [reflexivity|]). destruct Iz. }
  assert (Er : read_next_record C c0 = (Ok (Some (CT_ALERT, [x02; Nb code])), cset_in [] c0)).
  { rewrite read_record_eq. cbv zeta. cbn [c0 c_in cset_in]. rewrite Id1. cbn [app]. unfold d. rewrite <- (app_nil_r (record _ _)).
    destruct (record_parts CT_ALERT [x02; Nb code] []) as (P1 & P2 & P3 & P4 & P5 & P6); [reflexivity|].
    rewrite record_head by (reflexivity || discriminate). rewrite P4, P1.
    change (5 + blen [x02; Nb code] + blen [] <? 5) with false. cbv iota.
    unfold rec_max. change (dec_on c0) with (dec_on c). rewrite Dn. change (max_frag c0) with (max_frag c).
    assert (max_frag c + 0 <? blen [x02; Nb code] = false) as -> by (apply N.ltb_ge; change (blen [x02; Nb code]) with 2; lia).
    change (5 + blen [x02; Nb code] + blen [] - 5 <? blen [x02; Nb code]) with false. cbv iota.
    unfold unprotect. rewrite bind_get. cbv zeta. rewrite P1, P2, P3, P6.
    change (dec_on (cset_in [] c0)) with (dec_on c). rewrite Dn. reflexivity. }
  set (c1 := cset_in [] c0) in *.
  assert (Hc : handle_content C CT_ALERT [x02; Nb code] c1 = (Err (XAlert code), c1)).
  { unfold handle_content. rewrite bind_get.
    assert (Pa : parse_content C (peer_cert_type c1) CT_ALERT [x02; Nb code] = Ok (KAlert FATAL code)).
    { rewrite parse_alert_eq, bN_Nb by exact Lc. reflexivity. }
    rewrite Pa. change (bind (lift (Ok ?v)) ?k c1) with (k v c1). cbv beta iota. change (bind (ret tt) ?k c1) with (k tt c1). cbv beta.
    unfold process. rewrite bind_get.
    assert (B : base_process (KAlert FATAL code) c1 = (Err (XAlert code), c1)).
    { cbn [base_process]. apply N.eqb_neq in N1, N2. rewrite N1, N2, Mc. reflexivity. }
    change (c_state c1) with (c_state c). destruct (c_state c); try exact B; try discriminate Cr; try discriminate Cs.
    - match goal with H : can_receive (Closed ?f _) = true |- _ => destruct f end; [exact B | discriminate Cr]. }
  assert (Ra : raises C c0 (XAlert code) c1).
  { apply raises_now. unfold receive_one, read_next_content, bind. rewrite Er. unfold get. change (c_inhs c1) with (c_inhs c). rewrite Id2. cbn [is_nil andb negb].
    change (CT_ALERT =? CT_HANDSHAKE) with false. cbn [negb]. unfold ret. rewrite Hc. reflexivity. }
  destruct (receive_alert C g c d (XAlert code) c1 As R Cr) as (c' & H1 & H2 & r & A & O); try assumption; try discriminate.
  unfold alert_for in A. apply N.ltb_lt in Lc. rewrite Lc in A.
  exists c'. split; [exact H1|]. split; [exact H2|]. exists r; split; [exact A | exact O].
Qed.
