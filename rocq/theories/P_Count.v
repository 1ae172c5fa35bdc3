(* A sequence number is never above the number of records sealed. *)
From Verif Require Import Base P_Base Iana Crypto Config Serial Ext Msg Hkdf Cipher Kex Sig Ocsp Transcript Conn
  S_Hist S_Conn S_Send S_Nonce S_Alert S_Auth P_Monad P_Frame P_Hist P_Send P_Wire P_Nonce P_Alert.

Definition seqI (c : conn) : Prop :=
  match c_cipher c with
  | Some x => forall q, d_seq (cs_w x) = Some q -> q_next q <= N.of_nat (length (c_log c))
  | None => True
  end.
Definition countI (c : conn) : Prop := ivI c /\ nonceI c /\ seqI c.
Definition countR (c c' : conn) : Prop := countI c -> countI c'.
Lemma countI_same c c' : c_cipher c' = c_cipher c -> c_log c' = c_log c -> countR c c'.
Proof.
  intros E1 E2 (A & B & D). split; [eapply ivI_same; eassumption|]. split; [eapply nonceI_same; eassumption|].
  unfold seqI in *. rewrite E1, E2. exact D.
Qed.
Ltac same_count := intros; try match goal with |- countR _ _ => intro end; eapply countI_same; [| | eassumption]; reflexivity.
Lemma seqI_cipher c x x' : c_cipher c = Some x -> seqI c ->
  (forall q, d_seq (cs_w x') = Some q -> d_seq (cs_w x) = Some q \/ q_next q = 0) -> seqI (cset_cipher (Some x') c).
Proof.
  unfold seqI. intros -> S K. cbn [c_cipher cset_cipher c_log]. intros q E. destruct (K q E) as [E'|E']; [apply S; exact E' | lia].
Qed.
Lemma install_seq s k iv d r d' : install s k iv d = (r, d') -> forall q, d_seq d' = Some q -> d_seq d = Some q \/ q_next q = 0.
Proof.
  unfold install. intro H. destruct (usage_limit s); injection H; intros <- _; intros q E; cbn in E; [|left; exact E].
  injection E; intros <-. right. reflexivity.
Qed.
Lemma count_both A (m : cs -> res A * cs) : rel ivR (on_cipher m) -> rel nonceR (on_cipher m) ->
  (forall x q, d_seq (cs_w (snd (m x))) = Some q -> d_seq (cs_w x) = Some q \/ q_next q = 0) -> rel countR (on_cipher m).
Proof.
  intros R1 R2 K c (Iv & B & D). split; [exact (R1 c Iv)|]. split; [exact (R2 c B)|].
  unfold on_cipher. rewrite bind_get. destruct (c_cipher c) as [x|] eqn:Ex; [|exact D].
  pose proof (K x) as K'. destruct (m x) as [r x']. cbn [snd] in *.
  apply (seqI_cipher c x); assumption.
Qed.
Lemma install_both_seq ck civ sk siv x r x' q : install_both ck civ sk siv x = (r, x') ->
  d_seq (cs_w x') = Some q -> d_seq (cs_w x) = Some q \/ q_next q = 0.
Proof.
  intros H. apply (install_both_w tt) in H; [|reflexivity]. destruct H as (_ & k & iv & [H|[e H]]); eapply install_seq; exact H.
Qed.
Lemma count_skip C : rel countR (on_cipher (skip_early_secrets C)).
Proof.
  apply count_both; [apply ivR_stable | apply nonce_skip|]. intros x q. unfold skip_early_secrets.
  destruct (negb _); [auto|]. destruct (extract_and_advance C _ x) as [[?|?] x1] eqn:E; apply extract_w in E;
  destruct E as (_ & E & _); cbn; rewrite E; auto.
Qed.
Lemma count_hsk C a b : rel countR (on_cipher (derive_handshake_secrets C a b)).
Proof.
  apply count_both; [apply ivR_stable | apply nonce_hsk|]. intros x q. unfold derive_handshake_secrets.
  destruct (negb _); [auto|].
  destruct (extract_and_advance C _ x) as [[secret|?] x1] eqn:E; apply extract_w in E; destruct E as (E1 & E2 & _); [|cbn; rewrite E2; auto].
  destruct (derive_hs C (cs_suite x) secret b) as [s|]; [|cbn; rewrite E2; auto].
  destruct (install_both _ _ _ _ _) as [[?|?] x'] eqn:I; cbn [snd]; intro Q; (eapply install_both_seq in I; [|exact Q]); cbn in I; rewrite E2 in I; exact I.
Qed.
Lemma count_msk C a b : rel countR (on_cipher (derive_master_secrets C a b)).
Proof.
  apply count_both; [apply ivR_stable | apply nonce_msk|]. intros x q. unfold derive_master_secrets.
  destruct (negb _); [auto|]. destruct (derive_ap _ _ _ _ _) as [s|]; [|auto].
  destruct (install_both _ _ _ _ x) as [[?|?] x'] eqn:I; cbn [snd]; intro Q; (eapply install_both_seq in I; [|exact Q]); exact I.
Qed.
Lemma count_decrypt C a b : rel countR (on_cipher (decrypt C a b)).
Proof.
  intros c (A & B & D). split; [apply (st_decrypt C _ (ivR_stable C)); exact A|]. split; [apply nonce_decrypt; exact B|].
  unfold on_cipher. rewrite bind_get. destruct (c_cipher c) as [x|] eqn:Ex; [|exact D].
  destruct (decrypt C a b x) as [r x'] eqn:E. apply decrypt_read in E. destruct E as [E _].
  apply (seqI_cipher c x); [exact Ex | exact D|]. rewrite E. auto.
Qed.
Lemma count_encrypt_fragment C ct mfl f c : ivI c -> nonceI c -> seqI c -> seqI (snd (encrypt_fragment C ct mfl f c)).
Proof.
  unfold encrypt_fragment. intros Iv No G. rewrite bind_get. cbv zeta.
  destruct (to_bytes 2 _) as [l|e]; [|exact G].
  change (bind (lift (Ok l)) ?k c) with (k l c). cbv beta zeta.
  set (data := inner_bytes ct mfl (tag_len c) f). set (aad := Nb CT_APPDATA :: x03 :: x03 :: l).
  destruct (on_cipher (encrypt C data aad) c) as [r0 c0] eqn:E0.
  match goal with |- context [bind ?m ?k c] =>
    assert (E1 : m c = (match r0 with Ok z => Ok z | Err e => Err (in_generator e) end, c0)) by
      (rewrite E0; destruct r0; reflexivity);
    rewrite (bind_eq _ _ m k c _ _ E1); clear E1 end.
  apply on_cipher_inv in E0. destruct E0 as [(_ & -> & ->) | (x & x1 & Ex & E & ->)]; [exact G|].
  assert (K : forall r x', encrypt C data aad x = (r, x') ->
    seqI (match r with Ok (b, s) => cset_log (s :: c_log c) (cset_cipher (Some x') c)
                       | Err _ => cset_cipher (Some x') c end)).
  { intros r x' H. unfold encrypt in H.
    assert (Same : seqI (cset_cipher (Some x) c)) by (apply (seqI_cipher c x); auto).
    destruct (d_key (cs_w x)) as [k|] eqn:Ek; [|injection H; intros <- <-; exact Same].
    unfold next_nonce in H. destruct (d_iv (cs_w x)) as [iv|] eqn:Ei.
    2:{ injection H; intros <- <-. replace (cs_set_w x (cs_w x)) with x by (destruct x; reflexivity). exact Same. }
    destruct (d_seq (cs_w x)) as [q|] eqn:Eq.
    2:{ injection H; intros <- <-. replace (cs_set_w x (cs_w x)) with x by (destruct x; reflexivity). exact Same. }
    unfold seq_next in H. destruct (q_next q <? q_limit q) eqn:El.
    all: rewrite Ek in H.
    2:{ injection H; intros <- <-. match goal with |- seqI (cset_cipher (Some ?y) c) => replace y with x; [exact Same|] end.
        clear - Ek Ei Eq. destruct x as [? ? ? ? ? ? [] ?]. cbn in *. subst. reflexivity. }
    apply N.ltb_lt in El.
    assert (Lt : N.lxor iv (q_next q) < 256 ^ N.of_nat 12).
    { destruct No as (_ & _ & D). rewrite Ex, Ek, Ei, Eq in D. destruct D as (lim & D1 & D2 & _).
      unfold ivI in Iv. rewrite Ex in Iv. destruct Iv as [Iv _]. unfold dir_ok in Iv. rewrite Ek, Ei in Iv.
      destruct Iv as (iv' & Ev & Lv & _). injection Ev; intros <-.
      change (256 ^ N.of_nat 12) with (2 ^ 96). change (256 ^ 12) with (2 ^ 96) in Lv.
      apply lxor_lt; [exact Lv|]. rewrite D2 in El.
      assert (lim <= 2 ^ 64).
      { unfold usage_limit in D1. destruct (_ || _); [injection D1; intros <-; discriminate|]. destruct (_ =? _); [injection D1; intros <-; discriminate | discriminate]. }
      assert (2 ^ 64 < 2 ^ 96) by reflexivity. lia. }
    rewrite to_bytes_lt in H by exact Lt.
    pose proof (f_equal fst H) as H1; pose proof (f_equal snd H) as H2; cbn [fst snd] in H1, H2; subst r x'; clear H.
    unfold seqI in *. rewrite Ex in G. cbn [c_cipher cset_cipher cset_log c_log cs_set_w cs_w d_seq]. intros q' E'. injection E'; intros <-.
    cbn [q_next]. specialize (G q Eq). cbn [length]. lia. }
  specialize (K r0 x1 E).
  destruct r0 as [[b s]|e]; [|exact K]. rewrite bind_modify.
  match goal with |- context [if ?b then _ else _] => destruct b end; exact K.
Qed.
Lemma iv_frag C ct mfl f : rel ivR (encrypt_fragment C ct mfl f).
Proof.
  intros c H. pose proof (sending_encrypt_fragment C ct mfl f c) as (_ & W & _). unfold ivI in *.
  destruct (c_cipher c) as [x|], (c_cipher (snd (encrypt_fragment C ct mfl f c))) as [y|]; cbn in W; try tauto.
  destruct W as [-> W]. cbn. split; [eapply dir_ok_le; [exact W | apply H] | apply H].
Qed.
Lemma count_send C k : rel countR (send_content C k).
Proof.
  pose proof (impl_preorder countI) as P.
  assert (T : forall d sd ty, rel countR (transcribe d sd ty)).
  { intros. unfold transcribe. reli P; [apply rel_on_tr | apply rel_modify]; same_count. }
  assert (F : forall ct mfl l, rel countR (send_fragments C ct mfl l)).
  { intros ct mfl. induction l as [|f l IH]; cbn [send_fragments]; reli P; [|apply IH].
    intros c9 (A & B & D). split; [apply iv_frag; exact A|]. split; [apply nonce_encrypt_fragment; exact B|].
    apply count_encrypt_fragment; assumption. }
  unfold send_content. reli P; try apply T; try apply F; apply rel_modify; same_count.
Qed.
Lemma countR_stable C : stable C countR.
Proof.
  split; try exact (impl_preorder countI); try (same_count).
  - intros exts c. apply countI_same; unfold client_neg_mfl; rewrite bind_get;
    (destruct (ext_get MAX_FRAGMENT_LENGTH exts) as [[]|]; try reflexivity;
      [destruct (mfl_octets code); [|reflexivity]; destruct (negb _); [reflexivity|]|];
      unfold upd_nc; rewrite bind_get; destruct (c_nc c); reflexivity).
  - intros exts c. apply countI_same; unfold server_neg_mfl; rewrite bind_get;
    (destruct (ext_get MAX_FRAGMENT_LENGTH exts) as [[]|]; try reflexivity;
      [destruct (mfl_octets code); [|reflexivity]|];
      unfold upd_nc, bind, get; destruct (c_nc c); reflexivity).
  - intros. unfold transcribe. reli (impl_preorder countI); [apply rel_on_tr | apply rel_modify]; same_count.
  - intros. apply rel_on_tr; same_count.
  - intros. apply rel_on_tr; same_count.
  - intros s sd c (A & B & D). split; [exact (st_cs_new C _ (ivR_stable C) s sd c A)|]. split; [exact (nonce_new s sd c B)|].
    unfold seqI, set_cipher. cbn. discriminate.
  - apply count_skip.
  - apply count_hsk.
  - apply count_msk.
  - apply count_decrypt.
  - apply count_send.
Qed.
Lemma created_count g c : created g c -> countI c.
Proof.
  intro K. split; [|split; [eapply nonceI_created; exact K|]]; apply created_cases in K;
  destruct K as [(_ & host & ocsp & unique & rng & t & -> & _) | (_ & ocsp & unique & rng & t & -> & _)]; exact I.
Qed.
Lemma reachable_count C g c : reachable C g c -> countI c.
Proof.
  intros (c0 & ops & K & ->). pose proof (created_count _ _ K) as G. revert G.
  generalize c0. clear K. revert ops. intros ops c1. revert ops c1. apply keeps_run. intro o. apply of_rel.
  apply (stable_step C countR o (countR_stable C)); same_count.
Qed.
