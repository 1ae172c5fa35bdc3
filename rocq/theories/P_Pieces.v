(* The sequence number of the writing side is at most the number of records
   protected, so that input may be split without meeting the limit of a key. *)
From Verif Require Import Base P_Base Iana Crypto Config Serial Ext Msg Hkdf Cipher Transcript Conn S_Hist S_Conn S_Nonce S_Split P_Monad P_Hist P_Send P_Wire P_Frame P_Alert P_Nonce P_Rec P_Split P_Honest2.

Definition wide (v : option N) : Prop := match v with Some iv => iv < 256 ^ 12 | None => True end.
Definition upto (n : N) (q : option Cipher.seq) : Prop := match q with Some q => q_next q <= n /\ q_limit q <= 2 ^ 64 | None => True end.
Definition cntI (c : conn) : Prop :=
  match c_cipher c with
  | None => True
  | Some x => wide (d_iv (cs_w x)) /\ upto (N.of_nat (length (c_log c))) (d_seq (cs_w x))
  end.
Definition cntR (c c' : conn) : Prop := (length (c_log c) <= length (c_log c'))%nat /\ (cntI c -> cntI c').
Lemma cnt_pre : preorder cntR.
Proof. split; unfold cntR; [intuition | intros a b d [A1 A2] [B1 B2]; split; [lia | auto]]. Qed.
Lemma cnt_same c c' : c_cipher c' = c_cipher c -> c_log c' = c_log c -> cntR c c'.
Proof. unfold cntR, cntI. intros -> ->. auto. Qed.
Ltac both H := let a := fresh in let b := fresh in pose proof (f_equal fst H) as a; pose proof (f_equal snd H) as b; cbn [fst snd] in a, b; clear H; subst.
Ltac same_cnt := intros; apply cnt_same; reflexivity.

Lemma cnt_cipher c x x' : c_cipher c = Some x ->
  (wide (d_iv (cs_w x)) -> wide (d_iv (cs_w x'))) /\
  (d_seq (cs_w x') = d_seq (cs_w x) \/ exists lim, lim <= 2 ^ 64 /\ d_seq (cs_w x') = Some (seq_new lim)) ->
  cntR c (cset_cipher (Some x') c).
Proof.
  intros Ex [W S]. split; [cbn; lia|]. unfold cntI. rewrite Ex. cbn [c_cipher cset_cipher c_log]. intros [W1 U1]. split; [auto|].
  destruct S as [->|(lim & Ll & ->)]; [exact U1 | cbn [upto seq_new q_next q_limit]; split; [lia | exact Ll]].
Qed.
Lemma install_cnt suite k iv d r d' : install suite k iv d = (r, d') -> of_bytes iv < 256 ^ 12 ->
  wide (d_iv d') /\ (d_seq d' = d_seq d \/ exists lim, lim <= 2 ^ 64 /\ d_seq d' = Some (seq_new lim)).
Proof.
  unfold install. intros H L. destruct (usage_limit suite) as [lim|] eqn:U; both H; cbn [d_iv d_seq wide]; (split; [exact L|]); [right; exists lim; split; [pose proof (limit_small _ _ U); lia | reflexivity] | left; reflexivity].
Qed.
Lemma both_cnt ck civ sk siv x r x' : install_both ck civ sk siv x = (r, x') -> of_bytes civ < 256 ^ 12 -> of_bytes siv < 256 ^ 12 ->
  wide (d_iv (cs_w x')) /\ (d_seq (cs_w x') = d_seq (cs_w x) \/ exists lim, lim <= 2 ^ 64 /\ d_seq (cs_w x') = Some (seq_new lim)).
Proof.
  intros H L1 L2. unfold install_both in H.
  assert (exists wk wiv rk riv, match cs_side x with Client => (ck, civ, sk, siv) | Server => (sk, siv, ck, civ) end = (wk, wiv, rk, riv) /\ of_bytes wiv < 256 ^ 12) as (wk & wiv & rk & riv & E & L).
  { destruct (cs_side x); do 4 eexists; split; try reflexivity; assumption. }
  rewrite E in H. destruct (install (cs_suite x) wk wiv (cs_w x)) as [[[]|e] w] eqn:I; apply install_cnt in I; try exact L.
  - destruct (install (cs_suite x) rk riv (cs_r x)) as [[[]|e] rr]; both H; exact I.
  - both H. exact I.
Qed.
Lemma cnt_skip C : rel cntR (on_cipher (skip_early_secrets C)).
Proof.
  apply (rel_on_cipher _ cnt_pre). intros x c Ex. apply (cnt_cipher c x); [exact Ex|]. unfold skip_early_secrets.
  destruct (negb _); [cbn; auto|]. destruct (extract_and_advance C _ x) as [[?|?] x1] eqn:E; apply extract_w in E; destruct E as (_ & E & _); cbn [snd]; rewrite E; auto.
Qed.
Lemma cnt_hsk C a b : rel cntR (on_cipher (derive_handshake_secrets C a b)).
Proof.
  apply (rel_on_cipher _ cnt_pre). intros x c Ex. apply (cnt_cipher c x); [exact Ex|]. unfold derive_handshake_secrets.
  destruct (negb _); [cbn; auto|].
  destruct (extract_and_advance C _ x) as [[secret|?] x1] eqn:E; apply extract_w in E; destruct E as (E1 & E2 & E3 & E4); [|cbn [snd]; rewrite E2; auto].
  destruct (derive_hs C (cs_suite x) secret b) as [s|] eqn:D; [|cbn [snd]; rewrite E2; auto].
  destruct (derive_hs_iv _ _ _ _ _ D) as [L1 L2].
  destruct (install_both _ _ _ _ _) as [[?|?] x'] eqn:I; cbn [snd]; apply both_cnt in I; try assumption; cbn [cs_set_fin cs_w] in I; rewrite E2 in I; tauto.
Qed.
Lemma cnt_msk C a b : rel cntR (on_cipher (derive_master_secrets C a b)).
Proof.
  apply (rel_on_cipher _ cnt_pre). intros x c Ex. apply (cnt_cipher c x); [exact Ex|]. unfold derive_master_secrets.
  destruct (negb _); [cbn; auto|]. destruct (derive_ap _ _ _ _ _) as [s|] eqn:D; [|cbn; auto]. destruct (derive_ap_iv _ _ _ _ _ _ D) as [L1 L2].
  destruct (install_both _ _ _ _ x) as [[?|?] x'] eqn:I; cbn [snd]; apply both_cnt in I; try assumption; tauto.
Qed.
Lemma cnt_decrypt C a b : rel cntR (on_cipher (decrypt C a b)).
Proof.
  apply (rel_on_cipher _ cnt_pre). intros x c Ex. apply (cnt_cipher c x); [exact Ex|].
  destruct (decrypt C a b x) as [r x'] eqn:D. apply decrypt_read in D. destruct D as [D _]. cbn [snd]. rewrite D. cbn. auto.
Qed.
Lemma cnt_new s sd : rel cntR (set_cipher s sd).
Proof. apply rel_modify. intro c. split; [cbn; lia|]. intros _. unfold cntI. cbn. auto. Qed.

Lemma cnt_encrypt_fragment C ct mfl f : rel cntR (encrypt_fragment C ct mfl f).
Proof.
  unfold encrypt_fragment. intros c. rewrite bind_get. cbv zeta.
  destruct (to_bytes 2 _) as [l|e]; [|apply cnt_pre].
  change (bind (lift (Ok l)) ?k c) with (k l c). cbv beta zeta.
  set (data := inner_bytes ct mfl (tag_len c) f). set (aad := Nb CT_APPDATA :: x03 :: x03 :: l).
  destruct (on_cipher (encrypt C data aad) c) as [r0 c0] eqn:E0.
  match goal with |- context [bind ?m ?k c] =>
    assert (E1 : m c = (match r0 with Ok z => Ok z | Err e => Err (in_generator e) end, c0)) by
      (rewrite E0; destruct r0; reflexivity);
    rewrite (bind_eq _ _ m k c _ _ E1); clear E1 end.
  apply on_cipher_inv in E0. destruct E0 as [(_ & -> & ->) | (x & x1 & Ex & E & ->)]; [apply cnt_pre|].
  assert (K : cntR c (match r0 with Ok (b, s) => cset_log (s :: c_log c) (cset_cipher (Some x1) c)
                       | Err _ => cset_cipher (Some x1) c end)).
  { unfold encrypt in E. destruct (d_key (cs_w x)) as [k|] eqn:Ek.
    2:{ both E. apply cnt_same; [symmetry; exact Ex | reflexivity]. }
    unfold next_nonce in E. destruct (d_iv (cs_w x)) as [iv|] eqn:Ei.
    2:{ both E. apply (cnt_cipher c x _ Ex). cbn. auto. }
    destruct (d_seq (cs_w x)) as [q|] eqn:Eq.
    2:{ both E. apply (cnt_cipher c x _ Ex). cbn. auto. }
    unfold seq_next in E. destruct (q_next q <? q_limit q) eqn:El.
    2:{ both E. apply (cnt_cipher c x _ Ex). cbn [cs_set_w cs_w d_iv d_seq]. rewrite Ei, Eq. auto. }
    destruct (to_bytes 12 (N.lxor iv (q_next q))) as [nonce|e] eqn:En.
    - both E. split; [cbn; lia|].
      unfold cntI. rewrite Ex. cbn [c_cipher cset_log cset_cipher c_log cs_set_w cs_w d_iv d_seq length upto q_next]. rewrite Ei, Eq. cbn [upto]. intros [W U]. split; [exact W | destruct U as [U1 U2]; cbn [q_limit]; split; [lia | exact U2]].
    - both E. split; [cbn; lia|].
      unfold cntI. rewrite Ex. cbn [c_cipher cset_log cset_cipher c_log cs_set_w cs_w d_iv d_seq length upto q_next]. rewrite Ei, Eq. cbn [upto wide]. intros [W U]. exfalso.
      apply N.ltb_lt in El. destruct U as [_ U]. rewrite to_bytes_lt in En; [discriminate|]. change (256 ^ N.of_nat 12) with (2 ^ 96). change (256 ^ 12) with (2 ^ 96) in W.
      apply lxor_lt; [exact W|]. eapply N.lt_le_trans; [exact El|]. eapply N.le_trans; [exact U|]. vm_compute. discriminate. }
  destruct r0 as [[b s]|e]; [|exact K]. rewrite bind_modify.
  match goal with |- context [if ?b then _ else _] => destruct b end; exact K.
Qed.
Lemma cnt_send C k : rel cntR (send_content C k).
Proof.
  pose proof cnt_pre as P.
  assert (T : forall d sd ty, rel cntR (transcribe d sd ty)).
  { intros. unfold transcribe. reli P; [apply rel_on_tr | apply rel_modify]; same_cnt. }
  assert (F : forall ct mfl l, rel cntR (send_fragments C ct mfl l)).
  { intros ct mfl. induction l as [|f l IH]; cbn [send_fragments]; reli P; [apply cnt_encrypt_fragment | apply IH]. }
  unfold send_content. reli P; try apply T; try apply F; apply rel_modify; same_cnt.
Qed.
Lemma cnt_stable C : stable C cntR.
Proof.
  split; try exact cnt_pre; try same_cnt.
  - intros exts c. apply cnt_same; unfold client_neg_mfl; rewrite bind_get;
    (destruct (ext_get MAX_FRAGMENT_LENGTH exts) as [[]|]; try reflexivity;
      [destruct (mfl_octets code); [|reflexivity]; destruct (negb _); [reflexivity|]|];
      unfold upd_nc; rewrite bind_get; destruct (c_nc c); reflexivity).
  - intros exts c. apply cnt_same; unfold server_neg_mfl; rewrite bind_get;
    (destruct (ext_get MAX_FRAGMENT_LENGTH exts) as [[]|]; try reflexivity;
      [destruct (mfl_octets code); [|reflexivity]|];
      unfold upd_nc, bind, get; destruct (c_nc c); reflexivity).
  - intros. unfold transcribe. reli cnt_pre; [apply rel_on_tr | apply rel_modify]; same_cnt.
  - intros. apply rel_on_tr; same_cnt.
  - intros. apply rel_on_tr; same_cnt.
  - apply cnt_new.
  - apply cnt_skip.
  - apply cnt_hsk.
  - apply cnt_msk.
  - apply cnt_decrypt.
  - apply cnt_send.
Qed.
Lemma cntI_created g c : created g c -> cntI c.
Proof.
  intro H. apply created_cases in H.
  destruct H as [(_ & host & ocsp & unique & rng & t & -> & _) | (_ & ocsp & unique & rng & t & -> & _)]; exact I.
Qed.
Lemma cntI_run C ops c : cntI c -> cntI (run C ops c).
Proof.
  revert ops c. apply keeps_run. intros o c. apply (stable_step C cntR o (cnt_stable C)); same_cnt.
Qed.
Lemma guarded_cnt C c : cntR c (snd (guarded C (receive_one C) c)).
Proof. apply (stable_guarded C cntR (cnt_stable C)). apply (stable_receive_one C cntR (cnt_stable C)); same_cnt. Qed.
Lemma guarded_nonce C c : nonceI c -> nonceI (snd (guarded C (receive_one C) c)).
Proof. apply (stable_guarded C nonceR (nonceR_stable C)). apply (stable_receive_one C nonceR (nonceR_stable C)); same_nonce. Qed.
Lemma loops_cnt C c x : loops C c x -> cntR c (snd x).
Proof.
  induction 1 as [c c1 H|c e c1 H|c c1 x H L IH]; pose proof (guarded_cnt C c) as K; rewrite H in K; cbn [snd] in *; auto.
  eapply (pre_trans _ cnt_pre); eassumption.
Qed.
Lemma loops_nonce C c x : loops C c x -> nonceI c -> nonceI (snd x).
Proof. induction 1 as [c c1 H|c e c1 H|c c1 x H L IH]; intro M; pose proof (guarded_nonce C c M) as K; rewrite H in K; cbn [snd] in *; auto. Qed.

Lemma young_no_rekey c : nonceI c -> cntI c -> (length (c_log c) < 1000)%nat -> rekeying c = Ok tt.
Proof.
  intros (_ & _ & D) K L. unfold cntI in K. unfold rekeying. destruct (c_cipher c) as [x|]; [|reflexivity]. unfold should_rekey.
  destruct (d_seq (cs_w x)) as [q|]; [|reflexivity]. destruct (d_key (cs_w x)); [|destruct D]. destruct (d_iv (cs_w x)); [|destruct D].
  destruct D as (lim & U & El & _). destruct K as [_ [K _]]. pose proof (limit_small _ _ U). unfold seq_peek. rewrite El, U.
  replace (q_next q <? lim) with true by (symmetry; apply N.ltb_lt; lia). cbn [rbind]. unfold REKEY_THRESHOLD.
  replace (lim - 1024 <=? q_next q) with false by (symmetry; apply N.leb_gt; lia). reflexivity.
Qed.

(* what is accepted in one piece is accepted in many *)
Lemma pieces_same C : forall ds c c1, (forall d, In d ds -> d <> []) -> ds <> [] -> nonceI c -> cntI c -> mfl_good c -> can_receive (c_state c) = true ->
  receive_data C (concat ds) c = (Ok tt, c1) -> hungry c1 -> (length (c_log c1) < 1000)%nat -> feed C ds c = (Ok tt, c1, []).
Proof.
  induction ds as [|d ds IH]; intros c c1 Ne N0 Nn Cn M Cr R Hu Ll; [congruence|]. clear N0.
  assert (Hd : d <> []) by (apply Ne; left; reflexivity).
  destruct ds as [|d2 ds'].
  { cbn [concat] in R. rewrite app_nil_r in R. cbn [feed]. rewrite R. reflexivity. }
  set (ds := d2 :: ds') in *. assert (Hds : ds <> []) by (unfold ds; congruence).
  assert (Nds : concat ds <> []).
  { unfold ds. cbn [concat]. intro Z. apply app_eq_nil in Z. apply (Ne d2); [right; left; reflexivity | apply Z]. }
  change (concat (d :: ds)) with (d ++ concat ds) in *.
  assert (Hw : d ++ concat ds <> []) by (intro Z; apply app_eq_nil in Z; tauto).
  pose proof (loop_terminates C (length (c_in (with_more d c))) (with_more d c) (le_n _)) as T.
  set (x := receive_loop (length (c_in (with_more d c))) C (with_more d c)) in *.
  pose proof (loops_ext C (concat ds) _ _ T M) as X. rewrite ext_app in X.
  pose proof (receive_loops C d c x Hd Cr T) as E.
  pose proof (loops_mfl _ _ _ T M) as M1. pose proof (loops_cnt _ _ _ T) as [_ C1]. pose proof (loops_nonce _ _ _ T) as N1.
  pose proof (loops_listens C _ _ T) as Li.
  destruct x as [[[]|e] cm]; cbn [finish snd] in *.
  2:{ rewrite (receive_loops C _ c _ Hw Cr X) in R. discriminate. }
  specialize (Li cm eq_refl Cr). specialize (C1 Cn).
  assert (N2 : nonceI cm) by (apply N1; exact Nn). clear N1.
  assert (W : exists y, loops C (with_more (concat ds) cm) y /\ loops C (with_more (d ++ concat ds) c) y).
  { destruct X as [X|X].
    - exists (receive_loop (length (c_in (with_more (concat ds) cm))) C (with_more (concat ds) cm)).
      split; [apply loop_terminates; lia | apply X, loop_terminates; lia].
    - exists (Ok tt, with_more (concat ds) cm). split; [|exact X]. apply hungry_loops.
      rewrite (receive_loops C _ c _ Hw Cr X) in R. unfold finish in R. pose proof (f_equal snd R) as R2. cbn [snd] in R2. rewrite R2. exact Hu. }
  destruct W as (y & W1 & W2).
  rewrite (receive_loops C _ c _ Hw Cr W2) in R.
  assert (Ey : snd y = c1) by (destruct y as [[[]|?] ?]; cbn [finish] in R; pose proof (f_equal snd R) as R2; exact R2).
  pose proof (loops_cnt _ _ _ W1) as [Lm _]. rewrite Ey in Lm. change (c_log (with_more (concat ds) cm)) with (c_log cm) in Lm.
  cbn [feed]. rewrite E, (young_no_rekey cm N2 C1) by lia.
  apply IH; try assumption.
  - intros q Hq. apply Ne. right. exact Hq.
  - rewrite (receive_loops C (concat ds) cm _ Nds Li W1). exact R.
Qed.
