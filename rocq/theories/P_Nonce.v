(* Nonces. *)
From Verif Require Import Base P_Base Iana Crypto Config Serial Ext Msg Hkdf Cipher Kex Sig Ocsp Transcript Conn S_Hist S_Nonce P_Monad P_Frame P_Hist.

(* sequence numbers, latest first *)
Fixpoint below (m : N) (ks : list N) : Prop :=
  match ks with
  | [] => True
  | k :: r => k < m /\ below k r
  end.
Lemma below_mono m m' ks : m <= m' -> below m ks -> below m' ks.
Proof. destruct ks; cbn; [auto|]. intros H [A B]. split; [lia | exact B]. Qed.
Lemma below_in m ks : below m ks -> forall k, In k ks -> k < m.
Proof.
  revert m; induction ks as [|a ks IH]; intros m H k Hk; [destruct Hk|].
  destruct H as [A B]. destruct Hk as [->|Hk]; [exact A|]. pose proof (IH a B k Hk). lia.
Qed.
Lemma below_len m ks : below m ks -> N.of_nat (length ks) <= m.
Proof.
  revert m; induction ks as [|a ks IH]; intros m H; [cbn; lia|].
  destruct H as [A B]. specialize (IH a B). cbn [length]. lia.
Qed.
Lemma below_nodup m ks : below m ks -> NoDup ks.
Proof.
  revert m; induction ks as [|a ks IH]; intros m H; constructor.
  - destruct H as [_ B]. intro Hin. pose proof (below_in _ _ B a Hin). lia.
  - destruct H as [_ B]. eapply IH. exact B.
Qed.

(* these sealings were made with the sequence numbers ks *)
Definition made (suite : N) (key : bytes) (iv : N) (k : N) (s : sealing) : Prop :=
  se_suite s = suite /\ se_key s = key /\ se_nonce s = be_bytes 12 (N.lxor iv k) /\ N.lxor iv k < 256 ^ 12.
Definition series (suite : N) (key : bytes) (iv m : N) (l : list sealing) : Prop :=
  exists ks, below m ks /\ Forall2 (made suite key iv) ks l.
Lemma series_mono suite key iv m m' l : m <= m' -> series suite key iv m l -> series suite key iv m' l.
Proof. intros H (ks & A & B). exists ks. split; [eapply below_mono; eassumption | exact B]. Qed.
Lemma lxor_inj iv a b : N.lxor iv a = N.lxor iv b -> a = b.
Proof.
  intro H. rewrite <- (N.lxor_0_l a), <- (N.lxor_0_l b), <- (N.lxor_nilpotent iv), !N.lxor_assoc, H. reflexivity.
Qed.
Lemma series_nodup suite key iv m l : series suite key iv m l -> NoDup (map se_nonce l).
Proof.
  intros (ks & A & B). pose proof (below_nodup _ _ A) as D. clear A. revert D.
  induction B as [|k s ks l M B IH]; intro D; cbn [map]; constructor.
  - inversion D as [|? ? D1 D2]; subst. intro Hin. apply D1.
    rewrite in_map_iff in Hin. destruct Hin as (t & T1 & T2).
    assert (exists k', In k' ks /\ made suite key iv k' t) as (k' & K1 & K2).
    { clear - B T2. induction B as [|a b ks l M B IH]; [destruct T2|].
      destruct T2 as [->|T2]; [exists a; split; [left; reflexivity | exact M]|].
      destruct (IH T2) as (k' & K1 & K2). exists k'. split; [right; exact K1 | exact K2]. }
    destruct M as (_ & _ & M1 & M2). destruct K2 as (_ & _ & N1 & N2).
    rewrite T1, M1 in N1.
    assert (N.lxor iv k = N.lxor iv k') as E.
    { rewrite <- (of_be_bytes 12 (N.lxor iv k)) by exact M2. rewrite N1. apply of_be_bytes. exact N2. }
    apply lxor_inj in E. subst. exact K1.
  - apply IH. inversion D; assumption.
Qed.
Lemma series_len suite key iv m l : series suite key iv m l -> N.of_nat (length l) <= m.
Proof.
  intros (ks & A & B). apply below_len in A.
  assert (length ks = length l) as <- by (clear -B; induction B; cbn; congruence). exact A.
Qed.
Lemma series_in suite key iv m l : series suite key iv m l ->
  forall s, In s l -> se_suite s = suite /\ se_key s = key.
Proof.
  intros (ks & _ & B). induction B as [|a b ks l M B IH]; intros s Hs; [destruct Hs|].
  destruct Hs as [<-|Hs]; [destruct M; tauto | apply IH; exact Hs].
Qed.

Definition old_epoch (l : list sealing) : Prop :=
  l = [] \/ exists suite key iv lim, usage_limit suite = Some lim /\ series suite key iv lim l.

Definition nonceI (c : conn) : Prop :=
  (forall s, In s (c_log c) -> se_epoch s <= epoch_w c) /\
  (forall e, old_epoch (under e (c_log c))) /\
  (match c_cipher c with
   | None => True
   | Some x =>
     match d_key (cs_w x), d_iv (cs_w x), d_seq (cs_w x) with
     | Some k, Some iv, Some q =>
       exists lim, usage_limit (cs_suite x) = Some lim /\ q_limit q = lim /\ q_next q <= lim /\
       series (cs_suite x) k iv (q_next q) (under (epoch_w c) (c_log c))
     | _, _, None => under (epoch_w c) (c_log c) = [] \/ d_key (cs_w x) = None
     | Some _, None, Some _ => False
     | None, _, Some _ => False
     end
   end).

Lemma under_above e log : (forall s, In s log -> se_epoch s < e) -> under e log = [].
Proof.
  intro H. unfold under. induction log as [|s log IH]; [reflexivity|]. cbn [filter].
  assert (se_epoch s =? e = false) as ->. { apply N.eqb_neq. pose proof (H s (or_introl eq_refl)). lia. }
  apply IH. intros t Ht. apply H. right; exact Ht.
Qed.

(* the cipher object changed, not the log *)
Lemma nonceI_cipher c x x' :
  c_cipher c = Some x -> nonceI c ->
  (cs_suite x' = cs_suite x /\ cs_w x' = cs_w x \/
   cs_suite x' = cs_suite x /\ exists k iv, install (cs_suite x) k iv (cs_w x) = (Ok tt, cs_w x') \/
                 (exists e, install (cs_suite x) k iv (cs_w x) = (Err e, cs_w x'))) ->
  nonceI (cset_cipher (Some x') c).
Proof.
  intros Ex (A & B & D) [[Hs Hw]|[Hs Hi]].
  - unfold nonceI, epoch_w in *. cbn [c_cipher cset_cipher c_log]. rewrite Ex in *. rewrite Hs, Hw. auto.
  - assert (Ep : d_epoch (cs_w x') = d_epoch (cs_w x) + 1).
    { destruct Hi as (k & iv & [H|[e H]]); unfold install in H; destruct (usage_limit (cs_suite x));
        try discriminate; injection H; intros <-; reflexivity. }
    assert (U : under (d_epoch (cs_w x) + 1) (c_log c) = []).
    { apply under_above. intros s Hin. pose proof (A s Hin) as L. unfold epoch_w in L. rewrite Ex in L. lia. }
    unfold nonceI, epoch_w in *. cbn [c_cipher cset_cipher c_log]. rewrite Ex in *. rewrite Ep.
    split; [intros s Hin; specialize (A s Hin); lia|]. split; [exact B|].
    rewrite U. destruct Hi as (k & iv & [H|[e H]]); unfold install in H; destruct (usage_limit (cs_suite x)) as [lim|] eqn:El;
        try discriminate; injection H; intros Hd; rewrite <- Hd in *; intros; cbn [d_key d_iv d_seq].
    + exists lim. rewrite Hs. split; [exact El|]. split; [reflexivity|]. split; [cbn; lia|]. exists []. split; [exact I | constructor].
    + destruct (d_seq (cs_w x)) as [q|]; [|left; reflexivity].
      exfalso. destruct (d_key (cs_w x)); [|exact D]. destruct (d_iv (cs_w x)); [|exact D].
      destruct D as (lim & D & _). congruence.
Qed.

Lemma install_both_w C0 ck civ sk siv x r x' : C0 = tt -> install_both ck civ sk siv x = (r, x') ->
  cs_suite x' = cs_suite x /\ exists k iv, install (cs_suite x) k iv (cs_w x) = (Ok tt, cs_w x') \/
                 (exists e, install (cs_suite x) k iv (cs_w x) = (Err e, cs_w x')).
Proof.
  intros _ H. unfold install_both in H.
  destruct (match cs_side x with Client => _ | Server => _ end) as [[[wk wiv] rk] riv].
  destruct (install (cs_suite x) wk wiv (cs_w x)) as [[[]|e] w] eqn:E.
  - destruct (install (cs_suite x) rk riv (cs_r x)) as [[[]|e] rr] eqn:E2;
    injection H; intros <- <-; (split; [reflexivity|]); exists wk, wiv; left; exact E.
  - injection H; intros <- <-. split; [reflexivity|]. exists wk, wiv. right. exists e. exact E.
Qed.
Lemma extract_w C ikm x r x' : extract_and_advance C ikm x = (r, x') ->
  cs_suite x' = cs_suite x /\ cs_w x' = cs_w x /\ cs_r x' = cs_r x /\ cs_side x' = cs_side x.
Proof.
  unfold extract_and_advance. destruct (derive_secret _ _ _ _ _); intro H; injection H; intros <- <-; auto.
Qed.

Definition nonceR (c c' : conn) : Prop := nonceI c -> nonceI c'.
Lemma nonceI_same c c' : c_cipher c' = c_cipher c -> c_log c' = c_log c -> nonceR c c'.
Proof. unfold nonceR, nonceI, epoch_w. intros -> ->. auto. Qed.

Ltac same_nonce := intros; try match goal with |- nonceR _ _ => intro end; eapply nonceI_same; [| | eassumption]; reflexivity.
Lemma nonce_skip C : rel nonceR (on_cipher (skip_early_secrets C)).
Proof.
  apply (rel_on_cipher _ (impl_preorder _)). intros x c Ex G.
  apply (nonceI_cipher c x); [exact Ex | exact G|]. left. unfold skip_early_secrets.
  destruct (negb _); [split; reflexivity|].
  destruct (extract_and_advance C _ x) as [[?|?] x1] eqn:E; apply extract_w in E; cbn; tauto.
Qed.
Lemma nonce_hsk C a b : rel nonceR (on_cipher (derive_handshake_secrets C a b)).
Proof.
  apply (rel_on_cipher _ (impl_preorder _)). intros x c Ex G.
  apply (nonceI_cipher c x); [exact Ex | exact G|]. unfold derive_handshake_secrets.
  destruct (negb _); [left; split; reflexivity|].
  destruct (extract_and_advance C _ x) as [[secret|?] x1] eqn:E; apply extract_w in E; destruct E as (E1 & E2 & E3 & E4); [|left; cbn; auto].
  destruct (derive_hs C (cs_suite x) secret b) as [s|]; [|left; cbn; auto].
  destruct (install_both _ _ _ _ _) as [[?|?] x'] eqn:I; cbn [snd];
  (apply (install_both_w tt) in I; [|reflexivity]); cbn [cs_set_fin cs_suite cs_w] in I; rewrite E1, E2 in I; right; exact I.
Qed.
Lemma nonce_msk C a b : rel nonceR (on_cipher (derive_master_secrets C a b)).
Proof.
  apply (rel_on_cipher _ (impl_preorder _)). intros x c Ex G.
  apply (nonceI_cipher c x); [exact Ex | exact G|]. unfold derive_master_secrets.
  destruct (negb _); [left; split; reflexivity|].
  destruct (derive_ap _ _ _ _ _) as [s|]; [|left; cbn; auto].
  destruct (install_both _ _ _ _ x) as [[?|?] x'] eqn:I; cbn [snd];
  (apply (install_both_w tt) in I; [|reflexivity]); right; exact I.
Qed.
Lemma nonce_decrypt C a b : rel nonceR (on_cipher (decrypt C a b)).
Proof.
  apply (rel_on_cipher _ (impl_preorder _)). intros x c Ex G.
  apply (nonceI_cipher c x); [exact Ex | exact G|]. left.
  destruct (decrypt C a b x) as [r x'] eqn:D. apply decrypt_read in D. destruct D as [D _].
  cbn [snd]. rewrite D. split; reflexivity.
Qed.
Lemma nonce_new s sd : rel nonceR (set_cipher s sd).
Proof.
  apply rel_modify. intros c (A & B & D). unfold nonceI.
  change (epoch_w (cset_cipher (Some (cs_logs (klog c) (cs_new (epoch_w c) (epoch_r c) s sd))) c)) with (epoch_w c). split; [exact A|]. split; [exact B|]. right. reflexivity.
Qed.

(* one record *)
Lemma nonce_encrypt_fragment C ct mfl f : rel nonceR (encrypt_fragment C ct mfl f).
Proof.
  unfold encrypt_fragment. intros c G. rewrite bind_get. cbv zeta.
  destruct (to_bytes 2 _) as [l|e]; [|exact G].
  change (bind (lift (Ok l)) ?k c) with (k l c). cbv beta zeta.
  set (data := inner_bytes ct mfl (tag_len c) f). set (aad := Nb CT_APPDATA :: x03 :: x03 :: l).
  destruct (on_cipher (encrypt C data aad) c) as [r0 c0] eqn:E0.
  match goal with |- context [bind ?m ?k c] =>
    assert (E1 : m c = (match r0 with Ok z => Ok z | Err e => Err (in_generator e) end, c0)) by
      (rewrite E0; destruct r0; reflexivity);
    rewrite (bind_eq _ _ m k c _ _ E1); clear E1 end.
  apply on_cipher_inv in E0. destruct E0 as [(_ & -> & ->) | (x & x1 & Ex & E & ->)]; [exact G|].
  assert (K : forall r x', encrypt C data aad x = (r, x') ->
    nonceI (match r with Ok (b, s) => cset_log (s :: c_log c) (cset_cipher (Some x') c)
                       | Err _ => cset_cipher (Some x') c end)).
  { intros r x' H. destruct G as (A & B & D). unfold encrypt in H.
    assert (Same : nonceI (cset_cipher (Some x) c)).
    { unfold nonceI, epoch_w in *. cbn [c_cipher cset_cipher c_log]. rewrite Ex in *. auto. }
    destruct (d_key (cs_w x)) as [k|] eqn:Ek; [|injection H; intros <- <-; exact Same].
    unfold next_nonce in H. destruct (d_iv (cs_w x)) as [iv|] eqn:Ei.
    2:{ injection H; intros <- <-. replace (cs_set_w x (cs_w x)) with x by (destruct x; reflexivity). exact Same. }
    destruct (d_seq (cs_w x)) as [q|] eqn:Eq.
    2:{ injection H; intros <- <-. replace (cs_set_w x (cs_w x)) with x by (destruct x; reflexivity). exact Same. }
    rewrite Ex in D. rewrite Ek, Ei, Eq in D. destruct D as (lim & D1 & D2 & D3 & D4).
    unfold seq_next in H. destruct (q_next q <? q_limit q) eqn:El.
    all: rewrite Ek in H.
    2:{ injection H; intros <- <-. match goal with |- nonceI (cset_cipher (Some ?y) c) => replace y with x; [exact Same|] end.
        clear - Ek Ei Eq. destruct x as [? ? ? ? ? ? [] ?]. cbn in *. subst. reflexivity. }
    apply N.ltb_lt in El. unfold epoch_w in *. rewrite Ex in *.
    destruct (to_bytes 12 (N.lxor iv (q_next q))) as [nonce|e] eqn:En.
    - apply to_bytes_ok in En. destruct En as (-> & Lt & _).
      pose proof (f_equal fst H) as H1; pose proof (f_equal snd H) as H2; cbn [fst snd] in H1, H2; subst r x'; clear H.
      set (s := mkSealing (cs_suite x) (d_epoch (cs_w x)) k (be_bytes 12 (N.lxor iv (q_next q))) data aad).
      assert (Ser : series (cs_suite x) k iv (q_next q + 1) (s :: under (d_epoch (cs_w x)) (c_log c))).
      { destruct D4 as (ks & Bk & Fk). exists (q_next q :: ks). split; [split; [lia | exact Bk]|].
        constructor; [|exact Fk]. unfold made, s; cbn. auto. }
      unfold nonceI, epoch_w. cbn [c_cipher cset_cipher cset_log c_log cs_set_w cs_w d_epoch d_key d_iv d_seq cs_suite].
      split; [|split].
      + intros t [<-|Ht]; [cbn; lia | apply A; exact Ht].
      + intro e. unfold under. cbn [filter]. destruct (se_epoch s =? e) eqn:Ee; [|apply B].
        apply N.eqb_eq in Ee. cbn in Ee. subst e. right. exists (cs_suite x), k, iv, lim. split; [exact D1|].
        eapply series_mono; [|exact Ser]. lia.
      + exists lim. cbn [q_limit q_next]. split; [exact D1|]. split; [exact D2|]. split; [lia|].
        unfold under. cbn [filter]. assert (se_epoch s =? d_epoch (cs_w x) = true) as -> by (apply N.eqb_refl). exact Ser.
    - injection H; intros <- <-. unfold nonceI, epoch_w. cbn [c_cipher cset_cipher cset_log c_log cs_set_w cs_w d_epoch d_key d_iv d_seq cs_suite].
      split; [exact A|]. split; [exact B|]. exists lim. cbn [q_limit q_next]. split; [exact D1|]. split; [exact D2|]. split; [lia|].
      eapply series_mono; [|exact D4]. lia. }
  specialize (K r0 x1 E).
  destruct r0 as [[b s]|e]; [|exact K]. rewrite bind_modify.
  match goal with |- context [if ?b then _ else _] => destruct b end; exact K.
Qed.
Lemma nonce_send C k : rel nonceR (send_content C k).
Proof.
  pose proof (impl_preorder nonceI) as P.
  assert (T : forall d sd ty, rel nonceR (transcribe d sd ty)).
  { intros. unfold transcribe. reli P; [apply rel_on_tr | apply rel_modify]; same_nonce. }
  assert (F : forall ct mfl l, rel nonceR (send_fragments C ct mfl l)).
  { intros ct mfl. induction l as [|f l IH]; cbn [send_fragments]; reli P; [apply nonce_encrypt_fragment | apply IH]. }
  unfold send_content. reli P; try apply T; try apply F; apply rel_modify; same_nonce.
Qed.
Lemma nonceR_stable C : stable C nonceR.
Proof.
  split; try exact (impl_preorder nonceI); try (same_nonce).
  - intros exts c. apply nonceI_same; unfold client_neg_mfl; rewrite bind_get;
    (destruct (ext_get MAX_FRAGMENT_LENGTH exts) as [[]|]; try reflexivity;
      [destruct (mfl_octets code); [|reflexivity]; destruct (negb _); [reflexivity|]|];
      unfold upd_nc; rewrite bind_get; destruct (c_nc c); reflexivity).
  - intros exts c. apply nonceI_same; unfold server_neg_mfl; rewrite bind_get;
    (destruct (ext_get MAX_FRAGMENT_LENGTH exts) as [[]|]; try reflexivity;
      [destruct (mfl_octets code); [|reflexivity]|];
      unfold upd_nc, bind, get; destruct (c_nc c); reflexivity).
  - intros. unfold transcribe. reli (impl_preorder nonceI); [apply rel_on_tr | apply rel_modify]; same_nonce.
  - intros. apply rel_on_tr; same_nonce.
  - intros. apply rel_on_tr; same_nonce.
  - apply nonce_new.
  - apply nonce_skip.
  - apply nonce_hsk.
  - apply nonce_msk.
  - apply nonce_decrypt.
  - apply nonce_send.
Qed.
Lemma nonceI_run C ops c : nonceI c -> nonceI (run C ops c).
Proof.
  revert ops c. apply keeps_run. intro o. apply of_rel.
  apply (stable_step C nonceR o (nonceR_stable C)); same_nonce.
Qed.
Lemma nonceI_created g c : created g c -> nonceI c.
Proof.
  intro H. apply created_cases in H.
  destruct H as [(_ & host & ocsp & unique & rng & t & -> & _) | (_ & ocsp & unique & rng & t & -> & _)];
  (split; [intros s []|]; split; [intro e; left; reflexivity | exact I]).
Qed.
Lemma one_key_series l : old_epoch l -> one_key l.
Proof.
  intros [->|(suite & key & iv & lim & L & S)].
  - split; [constructor|]. split; intros s; [intros t [] | intros []].
  - split; [eapply series_nodup; exact S|]. split.
    + intros s t Hs Ht. destruct (series_in _ _ _ _ _ S s Hs). destruct (series_in _ _ _ _ _ S t Ht). split; congruence.
    + intros s Hs. destruct (series_in _ _ _ _ _ S s Hs) as [-> _].
      exists lim. split; [|eapply series_len; exact S].
      unfold usage_limit in L. unfold limit_table, TLS_AES_128_GCM_SHA256, TLS_AES_256_GCM_SHA384, TLS_CHACHA20_POLY1305_SHA256 in *.
      destruct (suite =? _) eqn:E1 in L; cbn [orb] in L.
      { apply N.eqb_eq in E1. injection L; intros <-. rewrite E1. left. reflexivity. }
      destruct (suite =? _) eqn:E2 in L.
      { apply N.eqb_eq in E2. injection L; intros <-. rewrite E2. right. left. reflexivity. }
      destruct (suite =? _) eqn:E3 in L; [|discriminate].
      apply N.eqb_eq in E3. injection L; intros <-. rewrite E3. right. right. left. reflexivity.
Qed.
Lemma reachable_one_key C g c e : reachable C g c -> one_key (under e (c_log c)).
Proof.
  intros (c0 & ops & H & ->). apply one_key_series. apply nonceI_run. eapply nonceI_created; exact H.
Qed.
