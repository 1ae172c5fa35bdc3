(* Integrity from the creation of the connections on, for a caller that heeds
   the exceptions of receive_data. *)
From Verif Require Import Base P_Base Iana Crypto Config Serial Ext Msg Hkdf Cipher Kex Sig Ocsp Transcript Conn
  S_Hist S_Conn S_State S_Send S_Nonce S_Alert S_Utils S_Keys S_Auth S_Server S_Codec S_Deliver S_Agree S_Integrity S_Entire S_Heed
  P_Monad P_Frame P_Rec P_Send P_Nonce P_Pieces P_Alert P_Buf P_Hist P_Wire P_Wp P_State P_Auth P_Count P_Integ P_Integ2 P_Integ3 P_Integ4 P_Entire P_Entire2 P_Entire3 P_Heed.

Section Both.
Variable C : crypto.
Hypothesis As : aead_sized C.
Variables (a b a' b' : conn) (opsA opsB : list op).
Hypothesis Sa : side_ok a.
Hypothesis La : later C a a'.
Hypothesis Lb : later_heed C b b' opsB.
Variables (x y : cs) (k : bytes) (iv lim : N).
Hypothesis Ea : established (c_state a) = true.
Hypothesis Eb : established (c_state b) = true.
Hypothesis Ex : c_cipher a = Some x.
Hypothesis Ey : c_cipher b = Some y.
Hypothesis Es : cs_suite y = cs_suite x.
Hypothesis Us : usage_limit (cs_suite x) = Some lim.
Hypothesis Kx : d_key (cs_w x) = Some k /\ d_iv (cs_w x) = Some iv /\ d_seq (cs_w x) = Some (mkSeq 0 lim).
Hypothesis Ky : d_key (cs_r y) = Some k /\ d_iv (cs_r y) = Some iv /\ d_seq (cs_r y) = Some (mkSeq 0 lim).
Hypothesis Fk : forall s, In s (c_log a) -> se_key s = k -> se_epoch s = d_epoch (cs_w x).
Hypothesis Au : authentic C (cs_suite x) k (c_log (run C opsA a')).
Lemma heed_both : c_app b = [] -> heeded C opsB b' -> prefix (readout C opsB b' ++ c_app (run C opsB b')) (written C opsA a').
Proof.
  intros Ab Hd.
  destruct (sealed_both C As a a' opsA Sa La x y k iv lim Ea Ex Us Kx Ky) as (E & E1 & E2 & E3). rewrite E1 in Au.
  assert (Old : forall s, In s (c_log a) -> se_key s = k ->
    exists n, n < q_next (mkSeq 0 lim) /\ N.lxor iv n < 256 ^ 12 /\ se_nonce s = be_bytes 12 (N.lxor iv n)).
  { intros s I1 I2. exfalso. eapply none_old; eassumption. }
  destruct Kx as (K1 & K2 & K3). destruct Ky as (K4 & K5 & K6).
  assert (T : stepI (cs_suite x) k iv (mkSeq 0 lim) E [] b).
  { split; [|exact Eb]. exists O, y. split; [exact Ey|]. split; [|unfold Q1; rewrite Ab; reflexivity].
    split; [exact Es|]. split; [exact K4|]. split; [exact K5|]. rewrite K6. reflexivity. }
  assert (T' : heedI (cs_suite x) k iv (mkSeq 0 lim) E opsB [] b').
  { destruct Lb as [->|(z & L & -> & Z)]; [left; exact T|].
    apply (loops_heed C (cs_suite x) (cs_w x) k iv (mkSeq 0 lim) E (c_log a) K2 K3 E2 Old Au [] b z L) in T.
    destruct (fst z) as [u|e] eqn:Ez; [left; exact T|]. right. split; [exact T|]. right. exact (Z e eq_refl). }
  eapply prefix_trans; [|exact E3]. apply taken_prefix.
  exact (heed_run C (cs_suite x) (cs_w x) k iv (mkSeq 0 lim) E (c_log a) K2 K3 E2 Old Au opsB [] b' Hd T').
Qed.
End Both.

Section Entire.
Variable C : crypto.
Hypothesis As : aead_sized C.
Variables (ga gb : config) (a0 b0 : conn) (opsA opsB moreA moreB : list op).
Hypothesis Za : created ga a0.
Hypothesis Zb : created gb b0.
Let a := run C opsA a0.
Let b := run C opsB b0.
Hypothesis Sa : c_state a = Connected.
Hypothesis Sb : c_state b = Connected.
Hypothesis Ks : key_shared a b.
Hypothesis Un : unforgeable C a (c_log (run C moreA a)).
Hypothesis Hd : heeded C (opsB ++ moreB) b0.

Lemma entire_heed : prefix (readout C (opsB ++ moreB) b0 ++ c_app (run C moreB b)) (written_since C (opsA ++ moreA) a0).
Proof.
  destruct Ks as (x & y & k & iv & Ex & Ey & Es & K1 & K2 & K3 & K4). destruct Un as [Fr Au].
  destruct (created_hs ga a0 Za) as [Ha1 Ha2]. destruct (created_hs gb b0 Zb) as [Hb1 Hb2].
  destruct (connect C ga opsA a0 (created_reachable C ga a0 Za) Ha1 Ha2 Sa) as (a1 & a2 & restA & (A1 & x1 & A2 & A3 & A4) & A5 & A6 & A7 & A8 & _ & A9 & A10 & _).
  destruct (connect2 C gb moreB opsB b0 (created_reachable C gb b0 Zb) Hb1 Hb2 Sb Hd) as (b1 & b2 & restB & (B1 & y1 & B2 & B3 & B4) & B5 & B6 & B7 & B8 & B9 & B10).
  assert (Ea : established (c_state a1) = true) by (rewrite A1; reflexivity).
  assert (Eb : established (c_state b1) = true) by (rewrite B1; reflexivity).
  assert (Hx : heldI x1 a2).
  { apply (later_keeps C _ a1 a2 (held_guarded C x1) A7). split; [exists x1; split; [exact A2 | apply same_keys_refl] | apply est_post; exact Ea]. }
  assert (Hy : heldI y1 b2).
  { apply (later_keeps C _ b1 b2 (held_guarded C y1) (later_heed_later _ _ _ _ B7)). split; [exists y1; split; [exact B2 | apply same_keys_refl] | apply est_post; exact Eb]. }
  assert (Pa : is_post_handshake a2 = true) by apply Hx.
  pose proof (held_run C x1 restA a2 Hx) as ((x' & Ex' & Kx) & _). rewrite A8 in Ex'. change (c_cipher a = Some x') in Ex'.
  pose proof (held_run C y1 restB b2 Hy) as ((y' & Ey' & Ky) & _). rewrite B8 in Ey'. change (c_cipher b = Some y') in Ey'.
  assert (x' = x) by congruence. subst x'. assert (y' = y) by congruence. subst y'.
  destruct Kx as (X1 & _ & _ & _ & _ & _ & X2 & X3 & X4 & _). destruct Ky as (Y1 & _ & _ & _ & _ & _ & _ & _ & _ & Y2 & Y3 & _).
  destruct A3 as (k1 & iv1 & lim & U1 & U2 & U3 & U4). destruct B4 as (k2 & iv2 & lim2 & V1 & V2 & V3 & V4).
  assert (k1 = k) by congruence. assert (iv1 = iv) by congruence. assert (k2 = k) by congruence. assert (iv2 = iv) by congruence. subst k1 iv1 k2 iv2.
  assert (Es1 : cs_suite y1 = cs_suite x1) by congruence.
  assert (lim2 = lim) by congruence. subst lim2.
  assert (Kx1 : d_key (cs_w x1) = Some k /\ d_iv (cs_w x1) = Some iv /\ d_seq (cs_w x1) = Some (mkSeq 0 lim)) by auto.
  assert (Ky1 : d_key (cs_r y1) = Some k /\ d_iv (cs_r y1) = Some iv /\ d_seq (cs_r y1) = Some (mkSeq 0 lim)) by auto.
  assert (Sub : forall s, In s (c_log a1) -> In s (c_log a)).
  { destruct (sealed_both C As a1 a2 restA A6 A7 x1 y1 k iv lim Ea A2 U3 Kx1 Ky1) as (E & E1 & _). rewrite A8 in E1. change (c_log a = rev E ++ c_log a1) in E1.
    intros s I. rewrite E1. apply in_or_app. right. exact I. }
  assert (Fk : forall s, In s (c_log a1) -> se_key s = k -> se_epoch s = d_epoch (cs_w x1)).
  { intros s I1 I2. rewrite <- X4. apply (Fr x s Ex (Sub s I1)). rewrite K1, I2. reflexivity. }
  assert (Au1 : authentic C (cs_suite x1) k (c_log (run C (restA ++ moreA) a2))).
  { rewrite run_app, A8, <- X1. apply (Au x k Ex K1). }
  assert (Wr : written_since C (opsA ++ moreA) a0 = written C (restA ++ moreA) a2).
  { rewrite A9. apply (post_written C x1). exact Hx. }
  assert (Rb : run C (restB ++ moreB) b2 = run C moreB b) by (rewrite run_app, B8; reflexivity).
  rewrite B9, Wr, <- Rb.
  exact (heed_both C As a1 b1 a2 b2 (restA ++ moreA) (restB ++ moreB) A6 A7 B7 x1 y1 k iv lim Ea Eb A2 B2 Es1 U3 Kx1 Ky1 Fk Au1 B5 B10).
Qed.
End Entire.

Section Final.
Variable C : crypto.
Hypothesis As : aead_sized C.
Hypothesis Hs : hmac_sized C.
Hypothesis Hh : hash_sized C.
Variables (gc gs : config) (c0 s0 : conn) (opsC opsS moreC moreS : list op) (sd : bytes).
Hypothesis Gc : g_side gc = Client.
Hypothesis Gs : g_side gs = Server.
Hypothesis Zc : created gc c0.
Hypothesis Zs : created gs s0.
Hypothesis Os : own_random s0.
Let c := run C opsC c0.
Let s := run C opsS s0.
Hypothesis Sc : c_state c = Connected.
Hypothesis Ss : c_state s = Connected.
Hypothesis Fc : few c.
Hypothesis Fs : few s.
Hypothesis Al : Forall (Forall (fun b => 32 <= bN b <= 126)) (g_alpn gc).
Hypothesis Hf : host_fine C (c_host c).
Hypothesis Dh : dh_commutes C (c_rng c) (c_rng s).
Hypothesis Ic : In (SFin sd) (c_hs c).
Hypothesis Is : In (SFin sd) (c_hs s).
Lemma heed_server : unforgeable C c (c_log (run C moreC c)) -> heeded C (opsS ++ moreS) s0 ->
  prefix (readout C (opsS ++ moreS) s0 ++ c_app (run C moreS s)) (written C (opsC ++ moreC) c0) \/ finished_clash C c s \/ digest_mixup C gc c s.
Proof.
  intros Un Hd. destruct (final_keys C As Hs Hh gc gs c0 s0 opsC opsS sd) as [[K _]|X]; try assumption; [left|right; exact X].
  rewrite <- (client_written C gc); [|apply created_reachable; exact Zc | apply (created_client gc); assumption].
  exact (entire_heed C As gc gs c0 s0 opsC opsS moreC moreS Zc Zs Sc Ss K Un Hd).
Qed.
Lemma heed_client : unforgeable C s (c_log (run C moreS s)) -> heeded C (opsC ++ moreC) c0 ->
  prefix (readout C (opsC ++ moreC) c0 ++ c_app (run C moreC c)) (written_since C (opsS ++ moreS) s0) \/ finished_clash C c s \/ digest_mixup C gc c s.
Proof.
  intros Un Hd. destruct (final_keys C As Hs Hh gc gs c0 s0 opsC opsS sd) as [[_ K]|X]; try assumption; [left|right; exact X].
  exact (entire_heed C As gs gc s0 c0 opsS opsC moreS moreC Zs Zc Ss Sc K Un Hd).
Qed.
End Final.
