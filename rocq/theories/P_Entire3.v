(* Integrity from the creation of the connections on. *)
From Verif Require Import Base P_Base Iana Crypto Config Serial Ext Msg Hkdf Cipher Kex Sig Ocsp Transcript Conn
  S_Hist S_Conn S_State S_Send S_Nonce S_Alert S_Utils S_Keys S_Auth S_Server S_Codec S_Deliver S_Agree S_Integrity S_Entire
  P_Monad P_Frame P_Rec P_Send P_Nonce P_Pieces P_Alert P_Buf P_Hist P_Wire P_Wp P_State P_Auth P_Count P_Integ P_Integ2 P_Integ3 P_Integ4 P_Entire P_Entire2.
From Verif Require P_Flight P_Client P_Agree.

Lemma created_hs g c : created g c -> in_handshake (c_state c) = true /\ c_app c = [].
Proof.
  intro K. apply created_cases in K. destruct K as [(_ & host & ocsp & unique & rng & t & -> & _) | (_ & ocsp & unique & rng & t & -> & _)]; split; reflexivity.
Qed.
Lemma created_reachable C g c : created g c -> reachable C g c.
Proof. intro K. exists c, []. split; [exact K | reflexivity]. Qed.
Lemma run_app C l m : forall c, run C (l ++ m) c = run C m (run C l c).
Proof. induction l as [|o l IH]; intro c; [reflexivity|]. cbn [app run]. apply IH. Qed.
Lemma no_close C g ops c : reachable C g c -> c_state (run C ops c) = Connected -> ~ In OCloseS ops.
Proof.
  intros R E I. apply in_split in I. destruct I as (l1 & l2 & ->). rewrite run_app in E. cbn [run] in E.
  assert (R1 : reachable C g (run C l1 c)).
  { destruct R as (c0 & l & R & ->). exists c0, (l ++ l1). split; [exact R | symmetry; apply run_app]. }
  assert (D : done (c_state (after C OCloseS (run C l1 c))) = true) by (unfold after, step; rewrite snd_ret; apply done_close_s).
  apply (done_run C g l2) in D; [|apply reachable_step; exact R1]. rewrite E in D. discriminate D.
Qed.

Section Entire.
Variable C : crypto.
Hypothesis As : aead_sized C.
Variables (ga gb : config) (a0 b0 : conn) (opsA opsB moreA moreB : list op).
Hypothesis Za : created ga a0.
Hypothesis Zb : created gb b0.
Let a := run C opsA a0.
Let b := run C opsB b0.
Hypothesis Sa : c_state a = Connected.
Hypothesis Sb : c_state b = Connected.
Hypothesis Ks : key_shared a b.
Hypothesis Un : unforgeable C a (c_log (run C moreA a)).

Lemma entire_both :
  (exists E L ps qs, c_log (run C moreA a) = rev E ++ L /\ carried E ps /\ prefix (concat ps) (written_since C (opsA ++ moreA) a0) /\
     subseq qs ps /\ readout C (opsB ++ moreB) b0 ++ c_app (run C moreB b) = concat qs) /\
  (~ In OCloseS moreB -> few (run C moreB b) -> prefix (readout C (opsB ++ moreB) b0) (written_since C (opsA ++ moreA) a0)).
Proof.
  destruct Ks as (x & y & k & iv & Ex & Ey & Es & K1 & K2 & K3 & K4). destruct Un as [Fr Au].
  destruct (created_hs ga a0 Za) as [Ha1 Ha2]. destruct (created_hs gb b0 Zb) as [Hb1 Hb2].
  destruct (connect C ga opsA a0 (created_reachable C ga a0 Za) Ha1 Ha2 Sa) as (a1 & a2 & restA & (A1 & x1 & A2 & A3 & A4) & A5 & A6 & A7 & A8 & _ & A9 & A10 & _).
  destruct (connect C gb opsB b0 (created_reachable C gb b0 Zb) Hb1 Hb2 Sb) as (b1 & b2 & restB & (B1 & y1 & B2 & B3 & B4) & B5 & B6 & B7 & B8 & B9 & _ & B10 & B11).
  assert (Ea : established (c_state a1) = true) by (rewrite A1; reflexivity).
  assert (Eb : established (c_state b1) = true) by (rewrite B1; reflexivity).
  assert (Hx : heldI x1 a2).
  { apply (later_keeps C _ a1 a2 (held_guarded C x1) A7). split; [exists x1; split; [exact A2 | apply same_keys_refl] | apply est_post; exact Ea]. }
  assert (Hy : heldI y1 b2).
  { apply (later_keeps C _ b1 b2 (held_guarded C y1) B7). split; [exists y1; split; [exact B2 | apply same_keys_refl] | apply est_post; exact Eb]. }
  assert (Pa : is_post_handshake a2 = true) by apply Hx.
  pose proof (held_run C x1 restA a2 Hx) as ((x' & Ex' & Kx) & _). rewrite A8 in Ex'. change (c_cipher a = Some x') in Ex'.
  pose proof (held_run C y1 restB b2 Hy) as ((y' & Ey' & Ky) & _). rewrite B8 in Ey'. change (c_cipher b = Some y') in Ey'.
  assert (x' = x) by congruence. subst x'. assert (y' = y) by congruence. subst y'.
  destruct Kx as (X1 & _ & _ & _ & _ & _ & X2 & X3 & X4 & _). destruct Ky as (Y1 & _ & _ & _ & _ & _ & _ & _ & _ & Y2 & Y3 & _).
  destruct A3 as (k1 & iv1 & lim & U1 & U2 & U3 & U4). destruct B4 as (k2 & iv2 & lim2 & V1 & V2 & V3 & V4).
  assert (k1 = k) by congruence. assert (iv1 = iv) by congruence. assert (k2 = k) by congruence. assert (iv2 = iv) by congruence. subst k1 iv1 k2 iv2.
  assert (Es1 : cs_suite y1 = cs_suite x1) by congruence.
  assert (lim2 = lim) by congruence. subst lim2.
  assert (Kx1 : d_key (cs_w x1) = Some k /\ d_iv (cs_w x1) = Some iv /\ d_seq (cs_w x1) = Some (mkSeq 0 lim)) by auto.
  assert (Ky1 : d_key (cs_r y1) = Some k /\ d_iv (cs_r y1) = Some iv /\ d_seq (cs_r y1) = Some (mkSeq 0 lim)) by auto.
  assert (Sub : forall s, In s (c_log a1) -> In s (c_log a)).
  { destruct (sealed_both C As a1 a2 restA A6 A7 x1 y1 k iv lim Ea A2 U3 Kx1 Ky1) as (E & E1 & _). rewrite A8 in E1. change (c_log a = rev E ++ c_log a1) in E1.
    intros s I. rewrite E1. apply in_or_app. right. exact I. }
  assert (Fk : forall s, In s (c_log a1) -> se_key s = k -> se_epoch s = d_epoch (cs_w x1)).
  { intros s I1 I2. rewrite <- X4. apply (Fr x s Ex (Sub s I1)). rewrite K1, I2. reflexivity. }
  assert (Au1 : authentic C (cs_suite x1) k (c_log (run C (restA ++ moreA) a2))).
  { rewrite run_app, A8, <- X1. apply (Au x k Ex K1). }
  assert (Wr : written_since C (opsA ++ moreA) a0 = written C (restA ++ moreA) a2).
  { rewrite A9. apply (post_written C x1). exact Hx. }
  assert (Rd : readout C (opsB ++ moreB) b0 = readout C (restB ++ moreB) b2) by apply B9.
  assert (Rb : run C (restB ++ moreB) b2 = run C moreB b) by (rewrite run_app, B8; reflexivity).
  assert (Ra : run C (restA ++ moreA) a2 = run C moreA a) by (rewrite run_app, A8; reflexivity).
  split.
  - destruct (splice_both C As a1 b1 a2 b2 (restA ++ moreA) (restB ++ moreB) A6 A7 B7 x1 y1 k iv lim Ea Eb A2 B2 Es1 U3 Kx1 Ky1 Fk Au1)
      as (E & ps & qs & Q1 & Q2 & Q3 & Q4 & Q5).
    rewrite Ra in Q1. rewrite <- Wr in Q3. rewrite Rb, <- Rd, B5 in Q5.
    exists E, (c_log a1), ps, qs. repeat (split; [assumption|]). exact Q5.
  - intros No F. rewrite Rd, Wr.
    apply (integrity_both C As a1 b1 a2 b2 (restA ++ moreA) (restB ++ moreB) A6 B6 A7 B7 x1 y1 k iv lim Ea Eb A2 B2 Es1 U3 Kx1 Ky1 Fk Au1).
    + rewrite B1. reflexivity.
    + exact B5.
    + intro I. apply in_app_iff in I. destruct I as [I|I]; [|exact (No I)].
      apply B11 in I. exact (no_close C gb opsB b0 (created_reachable C gb b0 Zb) Sb I).
    + rewrite Rb. exact F.
Qed.
End Entire.

(* what a client writes, it writes after the handshake *)
Definition server_phase (p : phase) : bool := match p with SStart | SWaitCH | SWaitFinished => true | _ => false end.
Lemma path_client p q : path p q -> server_phase p = false -> server_phase q = false.
Proof.
  intros H. induction H as [u v E | | u v w _ IH1 _ IH2]; [|auto|auto]. destruct E; cbn; congruence.
Qed.
Lemma client_written C g ops : forall c, reachable C g c -> server_phase (phase_of (c_state c)) = false ->
  written_since C ops c = written C ops c.
Proof.
  induction ops as [|o ops IH]; intros c R P; [reflexivity|]. cbn [written written_since].
  rewrite IH; [|apply reachable_step; exact R | eapply path_client; [eapply state_path; exact R | exact P]].
  f_equal. destruct o; try reflexivity. destruct (c_state c); try discriminate P; rewrite ?andb_true_r; reflexivity.
Qed.
Lemma created_client g c : g_side g = Client -> created g c -> server_phase (phase_of (c_state c)) = false.
Proof.
  intros G K. apply created_cases in K. destruct K as [(_ & host & ocsp & unique & rng & t & -> & _) | (G' & _)]; [reflexivity | congruence].
Qed.

Lemma table_len suite h h' l l' : In (suite, (h, l)) suite_table -> In (suite, (h', l')) suite_table -> l = l'.
Proof.
  assert (F : forallb (fun e => forallb (fun e' => negb (fst e =? fst e') || (snd (snd e) =? snd (snd e'))) suite_table) suite_table = true) by (vm_compute; reflexivity).
  intros I J. rewrite forallb_forall in F. specialize (F _ I). rewrite forallb_forall in F. specialize (F _ J). cbn [fst snd] in F.
  rewrite N.eqb_refl in F. apply N.eqb_eq in F. exact F.
Qed.
Lemma rfc_shared C suite h shared th c s : rfc_keys C Client suite h shared th c -> rfc_keys C Server suite h shared th s ->
  key_shared c s /\ key_shared s c.
Proof.
  intros (x & l & X1 & X2 & X3 & (X4 & X5) & (X6 & X7)) (y & l' & Y1 & Y2 & Y3 & (Y4 & Y5) & (Y6 & Y7)). cbn [other_side] in *.
  assert (l' = l) by (eapply table_len; eassumption). subst l'.
  split; [exists x, y | exists y, x]; eexists; eexists; repeat (split; [eassumption || congruence|]); eassumption.
Qed.

Section Final.
Variable C : crypto.
Hypothesis As : aead_sized C.
Hypothesis Hs : hmac_sized C.
Hypothesis Hh : hash_sized C.
Variables (gc gs : config) (c0 s0 : conn) (opsC opsS moreC moreS : list op) (sd : bytes).
Hypothesis Gc : g_side gc = Client.
Hypothesis Gs : g_side gs = Server.
Hypothesis Zc : created gc c0.
Hypothesis Zs : created gs s0.
Hypothesis Os : own_random s0.
Let c := run C opsC c0.
Let s := run C opsS s0.
Hypothesis Sc : c_state c = Connected.
Hypothesis Ss : c_state s = Connected.
Hypothesis Fc : few c.
Hypothesis Fs : few s.
Hypothesis Al : Forall (Forall (fun b => 32 <= bN b <= 126)) (g_alpn gc).
Hypothesis Hf : host_fine C (c_host c).
Hypothesis Dh : dh_commutes C (c_rng c) (c_rng s).
Hypothesis Ic : In (SFin sd) (c_hs c).
Hypothesis Is : In (SFin sd) (c_hs s).
Lemma final_keys : key_shared c s /\ key_shared s c \/ finished_clash C c s \/ digest_mixup C gc c s.
Proof.
  destruct (P_Agree.bound_keys C As Hs Hh gc gs c s sd Gc) as [(ms & r & suite & h & shared & _ & K1 & K2)|X]; try assumption; [| |left; eapply rfc_shared; eassumption|right; exact X].
  - exists c0, opsC. split; [exact Zc | reflexivity].
  - exists s0, opsS. split; [exact Zs|]. split; [exact Os | reflexivity].
Qed.
Lemma final_server : unforgeable C c (c_log (run C moreC c)) -> ~ In OCloseS moreS -> few (run C moreS s) ->
  prefix (readout C (opsS ++ moreS) s0) (written C (opsC ++ moreC) c0) \/ finished_clash C c s \/ digest_mixup C gc c s.
Proof.
  intros Un No F. destruct final_keys as [[K _]|X]; [left|right; exact X].
  rewrite <- (client_written C gc); [|apply created_reachable; exact Zc | apply (created_client gc); assumption].
  apply (entire_both C As gc gs c0 s0 opsC opsS moreC moreS Zc Zs Sc Ss K Un); assumption.
Qed.
Lemma final_client : unforgeable C s (c_log (run C moreS s)) -> ~ In OCloseS moreC -> few (run C moreC c) ->
  prefix (readout C (opsC ++ moreC) c0) (written_since C (opsS ++ moreS) s0) \/ finished_clash C c s \/ digest_mixup C gc c s.
Proof.
  intros Un No F. destruct final_keys as [[_ K]|X]; [left|right; exact X].
  apply (entire_both C As gs gc s0 c0 opsS opsC moreS moreC Zs Zc Ss Sc K Un); assumption.
Qed.
End Final.
