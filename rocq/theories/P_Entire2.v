(* What goes on between the moment a connection is established and the end of
   the call that established it. *)
From Verif Require Import Base P_Base Iana Crypto Config Serial Ext Msg Hkdf Cipher Kex Sig Ocsp Transcript Conn
  S_Hist S_Conn S_State S_Send S_Nonce S_Alert S_Keys S_Auth S_Deliver S_Integrity S_Entire
  P_Monad P_Frame P_Rec P_Send P_Nonce P_Pieces P_Alert P_Buf P_Hist P_Wire P_Wp P_State P_Auth P_Count P_Integ P_Integ2 P_Integ3 P_Integ4 P_Entire.
From Verif Require P_Flight P_Client.

Lemma later_keeps C (P : conn -> Prop) c c' : keeps P (guarded C (receive_one C)) -> later C c c' -> P c -> P c'.
Proof.
  intros K [->|(x & L & ->)]; [auto|]. induction L as [c c1 H|c e c1 H|c c1 x H L IH]; intro Hc; pose proof (K c Hc) as K1; rewrite H in K1; auto.
Qed.
Lemma later_cnt C c c' : later C c c' -> cntR c c'.
Proof. intros [->|(x & L & ->)]; [apply cnt_pre | apply (loops_cnt C c x L)]. Qed.

(* the keys stay *)
Lemma same_keys_refl x : same_keys x x.
Proof. repeat split. Qed.
Lemma same_keys_trans x y z : same_keys x y -> same_keys y z -> same_keys x z.
Proof. unfold same_keys. intuition congruence. Qed.
Section Held.
Variable C : crypto.
Variable x0 : cs.
Definition heldI (c : conn) : Prop := (exists x, c_cipher c = Some x /\ same_keys x0 x) /\ is_post_handshake c = true.
Lemma held_same c c' : c_cipher c' = c_cipher c -> is_post_handshake c' = true -> heldI c -> heldI c'.
Proof. unfold heldI. intros -> P (H & _). auto. Qed.
Lemma held_reading c c' : reading c c' -> heldI c -> heldI c'.
Proof.
  intros Rd ((x & Ex & K) & P). split.
  - destruct Rd as [_ O]. destruct (P_Client.read_moves _ _ O x Ex) as (y & Ey & K2). exists y. split; [exact Ey | eapply same_keys_trans; eassumption].
  - unfold is_post_handshake. rewrite (reading_state _ _ Rd). exact P.
Qed.
Lemma held_send k : keeps heldI (send_content C k).
Proof.
  intros c ((x & Ex & K) & P). pose proof (sending_content C k c) as (_ & O & _). split.
  - destruct (P_Client.write_moves _ _ O x Ex) as (y & Ey & K2). exists y. split; [exact Ey | eapply same_keys_trans; eassumption].
  - unfold is_post_handshake. rewrite send_state. exact P.
Qed.
Lemma held_state s : (match s with Connected | Closed _ _ | Failed => true | _ => false end = true) -> keeps heldI (set_state s).
Proof. intros Hs c (H & P). split; [exact H | exact Hs]. Qed.
Lemma held_fail a : keeps heldI (fail C a).
Proof.
  apply of_rel. pose proof (impl_preorder heldI) as P. unfold fail. reli P.
  - apply to_rel, held_send.
  - apply to_rel. apply held_state. reflexivity.
Qed.
Lemma held_guarded : keeps heldI (guarded C (receive_one C)).
Proof.
  pose proof (impl_preorder heldI) as P.
  assert (One : keeps heldI (receive_one C)).
  { apply of_rel. unfold receive_one. reli P; [intro c; apply held_reading, reading_content|].
    match goal with |- rel _ (handle_content C ?ct ?d) => intros c H; destruct (handle_post C ct d c) as (H1 & H2); [apply H|] end. eapply held_same; eassumption. }
  intros c H. specialize (One c H). unfold guarded. destruct (receive_one C c) as [[b|e] c1]; [exact One|]. cbn [snd] in One.
  pose proof (held_fail (Some match alert_of e with Some code => code | None => INTERNAL_ERROR end) c1 One) as K.
  destruct (fail _ _ c1) as [[]]; exact K.
Qed.
Lemma held_step o c : heldI c -> heldI (after C o c).
Proof.
  intros H. unfold after, step. pose proof H as (S & Po).
  destruct o; try rewrite snd_ret.
  - unfold initiate_connection. rewrite bind_get. unfold is_post_handshake in Po. destruct (c_state c); try discriminate; exact H.
  - revert c H S Po. cut (keeps heldI (receive_data C d)); [intros K c H _ _; apply K, H|].
    pose proof (impl_preorder heldI) as P.
    assert (L : forall n, rel (fun c c' => heldI c -> heldI c') (receive_loop n C)).
    { induction n; cbn [receive_loop]; reli P; try (apply to_rel; apply held_guarded); apply IHn. }
    apply of_rel. unfold receive_data, rekey. reli P; [|apply L]. apply rel_modify. intros c1 H. exact H.
  - apply held_send. exact H.
  - exact H.
  - exact H.
  - unfold rekey. rewrite bind_get. destruct (negb _); exact H.
  - unfold close_receiving_end. rewrite bind_get, Po. cbn [negb]. destruct (c_state c); apply held_state; try reflexivity; exact H.
  - unfold close_sending_end. rewrite bind_get.
    pose proof (impl_preorder heldI) as P. revert H.
    match goal with |- heldI c -> heldI (snd (?m c)) => cut (keeps heldI m); [intros K; apply K|] end.
    clear - P. apply of_rel. reli P; try (apply to_rel; apply held_state; reflexivity); try (apply to_rel; apply held_send).
    apply rel_modify. intros c1 (S & Po). unfold is_post_handshake in Po.
    destruct (c_state c1) eqn:Ec; try (split; [exact S | unfold is_post_handshake; rewrite Ec; exact Po]). split; [exact S | reflexivity].
Qed.
Lemma held_run : forall ops c, heldI c -> heldI (run C ops c).
Proof. induction ops as [|o ops IH]; intros c H; [exact H|]. cbn [run]. apply IH, held_step, H. Qed.
End Held.

Lemma post_written C x0 ops : forall c, heldI x0 c -> written_since C ops c = written C ops c.
Proof.
  induction ops as [|o ops IH]; intros c H; [reflexivity|]. cbn [written written_since]. rewrite (IH _ (held_step C x0 o c H)). f_equal.
  destruct H as [_ P]. destruct o; try reflexivity. unfold is_post_handshake in P. destruct (c_state c); try discriminate P; rewrite andb_true_r; reflexivity.
Qed.

(* C48 and C49 between two established connections, whatever was in the rest
   of the call that established them *)
Section Both.
Variable C : crypto.
Hypothesis As : aead_sized C.
Variables (a b a' b' : conn) (opsA opsB : list op).
Hypothesis Sa : side_ok a.
Hypothesis Sb : side_ok b.
Hypothesis La : later C a a'.
Hypothesis Lb : later C b b'.
Variables (x y : cs) (k : bytes) (iv lim : N).
Hypothesis Ea : established (c_state a) = true.
Hypothesis Eb : established (c_state b) = true.
Hypothesis Ex : c_cipher a = Some x.
Hypothesis Ey : c_cipher b = Some y.
Hypothesis Es : cs_suite y = cs_suite x.
Hypothesis Us : usage_limit (cs_suite x) = Some lim.
Hypothesis Kx : d_key (cs_w x) = Some k /\ d_iv (cs_w x) = Some iv /\ d_seq (cs_w x) = Some (mkSeq 0 lim).
Hypothesis Ky : d_key (cs_r y) = Some k /\ d_iv (cs_r y) = Some iv /\ d_seq (cs_r y) = Some (mkSeq 0 lim).
Hypothesis Fk : forall s, In s (c_log a) -> se_key s = k -> se_epoch s = d_epoch (cs_w x).
Hypothesis Au : authentic C (cs_suite x) k (c_log (run C opsA a')).

Lemma lim_small : lim <= 2 ^ 64.
Proof.
  clear - Us. unfold usage_limit in Us. destruct (_ || _); [injection Us; intros <-; discriminate|].
  destruct (_ =? _); [injection Us; intros <-; discriminate | discriminate].
Qed.
Lemma iv_small : iv < 256 ^ 12.
Proof.
  destruct Sa as (_ & Iv & _). unfold ivI in Iv. rewrite Ex in Iv. destruct Iv as [Iv _]. unfold dir_ok in Iv.
  destruct Kx as (K1 & K2 & _). rewrite K1 in Iv. destruct Iv as (iv' & E & L & _). rewrite K2 in E. injection E; intros ->. exact L.
Qed.
Lemma wired_x : wired x.
Proof. exists k, iv. eexists. destruct Kx as (K1 & K2 & K3). repeat (split; [eassumption|]). split; [exact iv_small | exact lim_small]. Qed.
Lemma none_old s : In s (c_log a) -> se_key s = k -> False.
Proof.
  intros Hs Ks. destruct Sa as (_ & _ & Nn & _). destruct Nn as (_ & _ & Nn). rewrite Ex in Nn. destruct Kx as (K1 & K2 & K3).
  rewrite K1, K2, K3 in Nn. destruct Nn as (lim' & _ & _ & _ & (ks & Bl & F2)).
  assert (Hu : In s (under (epoch_w a) (c_log a))).
  { unfold under. apply filter_In. split; [exact Hs|]. apply N.eqb_eq. unfold epoch_w. rewrite Ex. apply Fk; assumption. }
  inversion F2 as [E1 E2|n t l l' M F E1 E2].
  - rewrite <- E2 in Hu. destruct Hu.
  - subst ks. cbn [q_next] in Bl. assert (n < 0) by (eapply below_in; [exact Bl | left; reflexivity]). lia.
Qed.
Lemma sealed_both : exists E, c_log (run C opsA a') = rev E ++ c_log a /\ chain (cs_suite x) (cs_w x) E /\ prefix (payload E) (written C opsA a').
Proof.
  assert (H : writeI x (c_log a) [] a).
  { split; [|split; [apply Sa | apply est_post; exact Ea]]. exists [], x. cbn [length dbump rev app chain]. repeat (split; [assumption || reflexivity || exact I|]). left. reflexivity. }
  apply (later_keeps C _ a a' (write_guarded C As x (c_log a) wired_x []) La) in H.
  apply (write_run C As x (c_log a) wired_x opsA [] a') in H. destruct H as ((E & z & _ & _ & _ & A & B & D) & _).
  exists E. split; [exact A|]. split; [exact B|]. cbn [app] in D.
  destruct D as [->|[_ D]]; [exists []; rewrite app_nil_r; reflexivity | exact D].
Qed.
Lemma splice_both : exists E ps qs, c_log (run C opsA a') = rev E ++ c_log a /\ carried E ps /\ prefix (concat ps) (written C opsA a') /\
    subseq qs ps /\ readout C opsB b' ++ c_app (run C opsB b') = c_app b ++ concat qs.
Proof.
  destruct sealed_both as (E & E1 & E2 & E3). rewrite E1 in Au. destruct Kx as (K1 & K2 & K3). destruct Ky as (K4 & K5 & K6).
  assert (Old : forall s, In s (c_log a) -> se_key s = k ->
    exists n, n < q_next (mkSeq 0 lim) /\ N.lxor iv n < 256 ^ 12 /\ se_nonce s = be_bytes 12 (N.lxor iv n)).
  { intros s I1 I2. destruct (none_old s I1 I2). }
  assert (T : tookI (cs_suite x) k iv (mkSeq 0 lim) E (c_app b) [] b).
  { split; [|apply est_post; exact Eb]. exists O, y. split; [exact Ey|]. split; [|exists []; split; [constructor | cbn; rewrite app_nil_r; reflexivity]].
    split; [exact Es|]. split; [exact K4|]. split; [exact K5|]. rewrite K6. reflexivity. }
  apply (later_keeps C _ b b' (took_guarded C (cs_suite x) (cs_w x) k iv (mkSeq 0 lim) E (c_log a) K2 K3 E2 Old Au (c_app b) []) Lb) in T.
  apply (took_run C (cs_suite x) (cs_w x) k iv (mkSeq 0 lim) E (c_log a) K2 K3 E2 Old Au (c_app b) opsB [] b') in T.
  destruct T as ((j & z & _ & _ & (l & S1 & S2)) & _).
  exists E, (parts E), (parts l). split; [exact E1|]. split; [eapply chain_carried; exact E2|].
  split; [rewrite parts_payload; exact E3|].
  split; [apply parts_subseq; eapply subseq_prefix; exact S1|]. rewrite parts_payload. exact S2.
Qed.
Lemma integrity_both : can_send (c_state b) = true -> c_app b = [] -> ~ In OCloseS opsB -> few (run C opsB b') ->
  prefix (readout C opsB b') (written C opsA a').
Proof.
  intros Cs Ab No F.
  destruct sealed_both as (E & E1 & E2 & E3). rewrite E1 in Au. destruct Kx as (K1 & K2 & K3). destruct Ky as (K4 & K5 & K6).
  assert (Old : forall s, In s (c_log a) -> se_key s = k ->
    exists n, n < q_next (mkSeq 0 lim) /\ N.lxor iv n < 256 ^ 12 /\ se_nonce s = be_bytes 12 (N.lxor iv n)).
  { intros s I1 I2. destruct (none_old s I1 I2). }
  assert (Un : usage_limit (cs_suite x) <> None) by congruence.
  assert (T : loopI (cs_suite x) k iv (mkSeq 0 lim) E [] b).
  { left. split; [|unfold open; rewrite Eb, Cs; reflexivity]. exists O, y. split; [exact Ey|]. split; [|unfold Q1; rewrite Ab; reflexivity].
    split; [exact Es|]. split; [exact K4|]. split; [exact K5|]. rewrite K6. reflexivity. }
  assert (Fb : few b') by (eapply few_of; [apply (rel_run C cntR cnt_pre (step_cnt C) opsB) | exact F]).
  assert (T' : loopI (cs_suite x) k iv (mkSeq 0 lim) E [] b' /\ side_ok b').
  { split; [|exact (later_keeps C side_ok b b' (guarded_side C) Lb Sb)].
    destruct Lb as [->|(z & L & ->)]; [exact T|].
    apply (loops_reads C As (cs_suite x) (cs_w x) k iv (mkSeq 0 lim) E (c_log a) K2 K3 E2 Old Au Un [] b z L Sb T Fb). }
  destruct T' as [T' Sb'].
  pose proof (read_run C As (cs_suite x) (cs_w x) k iv (mkSeq 0 lim) E (c_log a) K2 K3 E2 Old Au Un opsB [] b' No Sb' (loop_read _ _ _ _ _ _ _ T') F) as T1.
  apply read_prefix in T1. cbn [app] in T1. destruct T1 as (u & T1). destruct E3 as (v & E3). exists (u ++ v). rewrite E3, T1, app_assoc. reflexivity.
Qed.
End Both.
