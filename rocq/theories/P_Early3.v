(* Early data from one end to the other, and the suites without usage limit. *)
From Verif Require Import Base P_Base Iana Crypto Hkdf Cipher S_Utils P_Hkdf S_Keys P_Keys S_Hist S_Nonce Early S_Early P_Alert P_Early P_Early2.
Local Open Scope string_scope.
Local Open Scope list_scope.
Local Open Scope N_scope.

Section flow.
Variable C : crypto.
Hypothesis Hs : hmac_sized C.
Hypothesis Hh : hash_sized C.
Hypothesis Ha : aead_correct C.
Variables (suite : N) (h : hashalg) (klen lim : N).
Hypothesis It : In (suite, (h, klen)) suite_table.
Hypothesis Il : In (suite, lim) limit_table.

Lemma flow_step s : forall ds p q n ew er,
  cs_suite (p_obj p) = suite -> cs_suite (p_obj q) = suite ->
  cs_w (p_obj p) = mkDir (Some (traffic_key C h klen s)) (Some (of_bytes (traffic_iv C h s))) (Some (mkSeq n lim)) ew ->
  cs_r (p_obj q) = mkDir (Some (traffic_key C h klen s)) (Some (of_bytes (traffic_iv C h s))) (Some (mkSeq n lim)) er ->
  n + N.of_nat (length ds) <= lim ->
  exists cts, length cts = length ds /\
    p_answers (fold_left (do_call C) (map seal_call ds) p) = p_answers p ++ map (fun c => Ok (ABytes c)) cts /\
    p_answers (fold_left (do_call C) (map open_call (combine cts ds)) q) = p_answers q ++ map (fun d => Ok (ABytes (fst d))) ds.
Proof using Hs Ha It Il.
  induction ds as [|[d a] ds IH]; intros p q n ew er Sp Sq Wp Rq L.
  { exists []. cbn. rewrite !app_nil_r. auto. }
  cbn [length] in L. rewrite Nat2N.inj_succ in L.
  assert (Ln : n < lim) by lia.
  assert (Nn : forall e, next_nonce (mkDir (Some (traffic_key C h klen s)) (Some (of_bytes (traffic_iv C h s))) (Some (mkSeq n lim)) e) =
    (Ok (be_bytes 12 (N.lxor (of_bytes (traffic_iv C h s)) n)), mkDir (Some (traffic_key C h klen s)) (Some (of_bytes (traffic_iv C h s))) (Some (mkSeq (n + 1) lim)) e)).
  { intro e. unfold next_nonce. cbn [d_iv d_seq d_key d_epoch]. unfold seq_next. cbn [q_next q_limit].
    destruct (n <? lim) eqn:Y; [|apply N.ltb_ge in Y; lia]. rewrite to_bytes_lt by (eapply nonce_lt; eassumption). reflexivity. }
  set (ct := cr_seal C suite (traffic_key C h klen s) (be_bytes 12 (N.lxor (of_bytes (traffic_iv C h s)) n)) d a).
  assert (P1 : exists p', do_call C p (KEncrypt d a) = p' /\ p_answers p' = p_answers p ++ [Ok (ABytes ct)] /\ cs_suite (p_obj p') = suite /\
    cs_w (p_obj p') = mkDir (Some (traffic_key C h klen s)) (Some (of_bytes (traffic_iv C h s))) (Some (mkSeq (n + 1) lim)) ew).
  { eexists. split; [reflexivity|]. unfold do_call, call_step, encrypt. rewrite Wp. cbn [d_key]. rewrite Nn. cbn [rbind fst p_answers p_obj].
    rewrite Sp. repeat split. exact Sp. }
  assert (Q1 : exists q', do_call C q (KDecrypt ct a) = q' /\ p_answers q' = p_answers q ++ [Ok (ABytes d)] /\ cs_suite (p_obj q') = suite /\
    cs_r (p_obj q') = mkDir (Some (traffic_key C h klen s)) (Some (of_bytes (traffic_iv C h s))) (Some (mkSeq (n + 1) lim)) er).
  { eexists. split; [reflexivity|]. unfold do_call, call_step, decrypt. rewrite Rq. cbn [d_key]. rewrite Nn, Sq. unfold ct. rewrite Ha. cbn [rbind p_answers p_obj].
    repeat split. exact Sq. }
  destruct P1 as (p' & Ep & Ap & Sp' & Wp'), Q1 as (q' & Eq & Aq & Sq' & Rq').
  destruct (IH p' q' (n + 1) ew er Sp' Sq' Wp' Rq' ltac:(lia)) as (cts & Lc & F1 & F2).
  exists (ct :: cts). split; [cbn; rewrite Lc; reflexivity|].
  cbn [map combine fold_left]. unfold seal_call at 2, open_call at 2. cbn [fst snd]. rewrite Ep, Eq, F1, F2, Ap, Aq, <- !app_assoc. split; reflexivity.
Qed.
Lemma early_flow psk mode th we re we' re' ds : opening (KEarly psk mode th) -> blen th <= 255 -> N.of_nat (length ds) <= lim ->
  exists b x cts, length cts = length ds /\
    p_answers (calls C (KEarly psk mode th :: map seal_call ds) (cs_new we re suite Client)) =
      Ok (APair b x) :: map (fun c => Ok (ABytes c)) cts /\
    p_answers (calls C (KEarly psk mode th :: map open_call (combine cts ds)) (cs_new we' re' suite Server)) =
      Ok (APair b x) :: map (fun d => Ok (ABytes (fst d))) ds.
Proof using Hs Hh Ha It Il.
  intros O L Ln.
  assert (K : exists kind, kind_of mode = Some kind).
  { destruct O as [->| ->]; [exists External | exists Resumption]; reflexivity. }
  destruct K as [kind K]. pose proof (e_hash suite h klen It) as Eh.
  assert (Z : forall a b sd, cs_salt (cs_new a b suite sd) = zero_block h) by (intros; cbn; rewrite Eh; reflexivity).
  unfold calls. cbn [fold_left]. unfold do_call at 2 4, call_step. cbn [p_obj].
  rewrite !(early_is C Hs Hh suite h klen lim It Il psk mode kind th) by (try reflexivity; auto). cbn [rbind p_answers app fst snd deriving].
  set (p := mkPast _ _ _ _).
  match goal with |- context [fold_left _ _ p] => idtac end.
  match goal with |- exists _ _ _, _ /\ _ /\ p_answers (fold_left _ _ ?q) = _ =>
    destruct (flow_step (early_traffic C h psk th) ds p q 0 (we + 1) (re' + 1)) as (cts & Lc & F1 & F2) end;
    try reflexivity; [lia|].
  do 2 eexists. exists cts. split; [exact Lc|]. split; [exact F1 | exact F2].
Qed.
Lemma early_rfc psk kind th we re sd : blen th <= 255 ->
  exists x, call_step C (KEarly psk (named kind) th) (cs_new we re suite sd) =
    (Ok (APair (binder_key C h kind psk) (early_exporter C h psk th)), x, []) /\
    cs_klog x = [("CLIENT_EARLY_TRAFFIC_SECRET", early_traffic C h psk th)].
Proof using Hs Hh It Il.
  intros L. pose proof (e_hash suite h klen It) as Eh. unfold call_step.
  rewrite (early_is C Hs Hh suite h klen lim It Il psk (named kind) kind th) by (try reflexivity; auto; try (destruct kind; reflexivity); cbn; rewrite Eh; reflexivity).
  eexists. split; [reflexivity|]. destruct sd; reflexivity.
Qed.
End flow.

(* without a usage limit no sequence number is ever there *)
Section ccm.
Variable C : crypto.
Variable suite : N.
Hypothesis Hn : usage_limit suite = None.
Definition lame (x : cs) : Prop := cs_suite x = suite /\ d_seq (cs_w x) = None /\ d_seq (cs_r x) = None.
Lemma lame_install k iv d r d' : install suite k iv d = (r, d') -> d_seq d = None -> d_seq d' = None /\ r = Err XType.
Proof using Hn. unfold install. rewrite Hn. intros H E. injection H; intros <- <-. split; [exact E | reflexivity]. Qed.
Lemma lame_both a b c d x r x' : install_both a b c d x = (r, x') -> lame x -> lame x' /\ r = Err XType.
Proof using Hn.
  unfold install_both. intros H (E & W & R). destruct (cs_side x); rewrite E in H;
    (match type of H with match install _ ?k ?iv ?d0 with _ => _ end = _ => destruct (install suite k iv d0) as [r1 w] eqn:E1 end;
     destruct (lame_install _ _ _ _ _ E1 W) as [W' ->]; injection H; intros <- <-; unfold lame; cbn; auto).
Qed.
Lemma lame_extract ikm x r x' : extract_and_advance C ikm x = (r, x') -> lame x -> lame x'.
Proof using. unfold extract_and_advance. destruct (derive_secret _ _ _ _ _); intros H L; injection H; intros <- _; exact L. Qed.
Lemma lame_step k x : lame x -> let '(r, x', s) := call_step C k x in lame x' /\ s = [] /\
  match k with KEncrypt _ _ | KDecrypt _ _ | KHandshake _ _ | KEarly _ _ _ | KMaster _ _ => exists e, r = Err e | _ => True end.
Proof using Hn.
  intro L. pose proof L as (E & W & R). destruct k; cbn [call_step].
  - unfold skip_early_secrets. destruct (negb _); [cbn; auto|]. destruct (extract_and_advance _ _ _) as [[s|e] x1] eqn:X; cbn; (split; [exact (lame_extract _ _ _ _ X L)|]); auto.
  - unfold derive_early_secrets. destruct (negb _); [cbn; eauto|]. destruct (negb _); [cbn; eauto|].
    destruct (extract_and_advance _ _ _) as [[s|e] x1] eqn:X; [|cbn; split; [exact (lame_extract _ _ _ _ X L)|]; eauto].
    pose proof (lame_extract _ _ _ _ X L) as L1. destruct (derive_early _ _ _ _ _) as [[[b ex] t]|]; [|cbn; eauto].
    destruct (derive_key_and_iv _ _ _) as [[k iv]|]; [|cbn; eauto]. unfold install_early.
    pose proof L1 as (E1 & W1 & R1). rewrite E1. destruct (cs_side x1).
    + destruct (install suite k iv (cs_w x1)) as [r d] eqn:Z. destruct (lame_install _ _ _ _ _ Z W1) as [D ->]. cbn. unfold lame. cbn. eauto 6.
    + destruct (install suite k iv (cs_r x1)) as [r d] eqn:Z. destruct (lame_install _ _ _ _ _ Z R1) as [D ->]. cbn. unfold lame. cbn. eauto 6.
  - unfold derive_handshake_secrets. destruct (negb _); [cbn; eauto|].
    destruct (extract_and_advance _ _ _) as [[s|e] x1] eqn:X; [|cbn; split; [exact (lame_extract _ _ _ _ X L)|]; eauto].
    pose proof (lame_extract _ _ _ _ X L) as L1. destruct (derive_hs _ _ _ _) as [s1|]; [|cbn; eauto].
    destruct (install_both _ _ _ _ _) as [r x2] eqn:Z. destruct (lame_both _ _ _ _ _ _ _ Z) as [L2 ->]; [exact L1|]. cbn. eauto.
  - unfold derive_master_secrets. destruct (negb _); [cbn; eauto|]. cbv zeta. destruct (derive_ap _ _ _ _ _) as [s1|]; [|cbn; eauto].
    destruct (install_both _ _ _ _ _) as [r x2] eqn:Z. destruct (lame_both _ _ _ _ _ _ _ Z) as [L2 ->]; [exact L|]. cbn. eauto.
  - unfold encrypt. destruct (d_key _); [|cbn; eauto]. unfold next_nonce. rewrite W. destruct (d_iv _); cbn; unfold lame; cbn; eauto 6.
  - unfold decrypt. destruct (d_key _); [|cbn; eauto]. unfold next_nonce. rewrite R. destruct (d_iv _); cbn; unfold lame; cbn; eauto 6.
  - auto. - auto. - auto.
Qed.
Lemma lame_calls l : forall p, lame (p_obj p) -> lame (p_obj (fold_left (do_call C) l p)) /\ p_seals (fold_left (do_call C) l p) = p_seals p.
Proof using Hn.
  induction l as [|k l IH]; intros p L; [auto|]. cbn [fold_left].
  assert (G : lame (p_obj (do_call C p k)) /\ p_seals (do_call C p k) = p_seals p).
  { unfold do_call. pose proof (lame_step k _ L) as S. destruct (call_step C k (p_obj p)) as [[r x] s]. destruct S as (A & -> & _). auto. }
  destruct G as [G1 G2]. destruct (IH _ G1) as [A B]. split; [exact A | congruence].
Qed.
End ccm.
Lemma ccm_nothing C suite we re sd l k : In suite [0x1304; 0x1305] ->
  let x := p_obj (calls C l (cs_new we re suite sd)) in
  p_seals (calls C l (cs_new we re suite sd)) = [] /\
  match k with KEncrypt _ _ | KDecrypt _ _ | KHandshake _ _ | KEarly _ _ _ | KMaster _ _ => exists e, fst (fst (call_step C k x)) = Err e | _ => True end.
Proof.
  intros I. cbv zeta. assert (U : usage_limit suite = None) by (destruct I as [<-|[<-|[]]]; reflexivity).
  destruct (lame_calls C suite U l (mkPast [] (cs_new we re suite sd) [] [])) as [L S]; [repeat split|]. split; [exact S|].
  pose proof (lame_step C suite U k _ L) as T. unfold calls. destruct (call_step C k _) as [[r x] s]. destruct T as (_ & _ & T). exact T.
Qed.
