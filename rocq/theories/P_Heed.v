(* Integrity for a caller that heeds the exceptions of receive_data. *)
From Verif Require Import Base P_Base Iana Crypto Config Serial Ext Msg Hkdf Cipher Kex Sig Ocsp Transcript Conn
  S_Hist S_Conn S_State S_Send S_Nonce S_Alert S_Auth S_Deliver S_Integrity S_Entire S_Heed
  P_Monad P_Frame P_Rec P_Send P_Nonce P_Pieces P_Alert P_Buf P_Hist P_Wire P_Wp P_State P_Auth P_Count P_Integ P_Integ2 P_Integ3 P_Integ4 P_Entire P_Entire2.

Definition silent_after (ops : list op) : Prop := forall d, ~ In (ORecv d) ops.

Section Heeding.
Variable C : crypto.
Variables (suite : N) (d0 : dir) (k : bytes) (iv : N) (q : seq) (E L0 : list sealing).
Hypothesis Hiv : d_iv d0 = Some iv.
Hypothesis Hq : d_seq d0 = Some q.
Hypothesis Ch : chain suite d0 E.
Hypothesis Old : forall s, In s L0 -> se_key s = k ->
  exists n, n < q_next q /\ N.lxor iv n < 256 ^ 12 /\ se_nonce s = be_bytes 12 (N.lxor iv n).
Hypothesis Au : authentic C suite k (rev E ++ L0).
Notation reads := (readsI suite k iv q E).

Definition taken (V : bytes) : Prop := exists j, payload (firstn j E) = V.
(* in step with the records that were sealed *)
Definition stepI (got : bytes) (c : conn) : Prop := reads (got ++ c_app c) c /\ established (c_state c) = true.
Lemma reads_taken V c : reads V c -> taken V.
Proof. intros (j & y & _ & _ & H). exists j. exact H. Qed.
Lemma handle_est ct d c : established (c_state c) = true ->
  established (c_state (snd (handle_content C ct d c))) = true /\ c_cipher (snd (handle_content C ct d c)) = c_cipher c.
Proof.
  intro O. pose (P := fun c1 : conn => established (c_state c1) = true /\ c_cipher c1 = c_cipher c).
  assert (K : keeps P (handle_content C ct d)); [|apply K; split; [exact O | reflexivity]].
  clear O. unfold P. generalize (c_cipher c). clear c P. intro o.
  set (P := fun c1 : conn => established (c_state c1) = true /\ c_cipher c1 = o).
  apply of_rel. pose proof (impl_preorder P) as Q. unfold handle_content. reli Q.
  - unfold transcribe. reli Q; [apply rel_on_tr | apply rel_modify]; intros x H; exact H.
  - assert (B : forall k, rel (fun c c' => P c -> P c') (base_process k)).
    { intro k0. unfold base_process. reli Q. apply rel_modify. intros x (_ & H). split; [reflexivity | exact H]. }
    intros c1 H. pose proof H as (H1 & H2). unfold process. rewrite bind_get. unfold established in H1.
    destruct (c_state c1) eqn:Ec; try discriminate H1.
    + match goal with |- context [match ?k with KCcs => _ | _ => _ end] => destruct k end; try (apply B; exact H). unfold modify. cbn [snd]. exact H.
    + destruct can_recv; [|discriminate H1].
      match goal with |- context [match ?k with KCcs => _ | _ => _ end] => destruct k end; try (apply B; exact H). unfold modify. cbn [snd]. exact H.
Qed.
Lemma guarded_heed got c : stepI got c ->
  match guarded C (receive_one C) c with
  | (Ok _, c') => stepI got c'
  | (Err _, c') => taken (got ++ c_app c')
  end.
Proof.
  intros [R O]. unfold guarded.
  destruct (receive_one C c) as [r c2] eqn:E1.
  unfold receive_one in E1. unfold bind at 1 in E1.
  destruct (read_next_content C c) as [rc c1] eqn:E2.
  pose proof (reading_content C c) as Rd. rewrite E2 in Rd. cbn [snd] in Rd.
  pose proof (read_content_app C c rc c1 E2) as Ap. pose proof (reading_state _ _ Rd) as St.
  assert (F : forall (e : exn) c', taken (got ++ c_app c') ->
    match (match fail C (Some match alert_of e with Some code => code | None => INTERNAL_ERROR end) c' with
             | (Ok _, c2) => (Err e : res bool, c2)
             | (Err e2, c2) => (Err e2, c2)
             end) with (Ok _, c') => stepI got c' | (Err _, c') => taken (got ++ c_app c') end).
  { intros e c' T. set (al := Some _). pose proof (fail_app C al c') as FA. destruct (fail C al c') as [[]]; cbn [snd] in FA; rewrite FA; exact T. }
  destruct rc as [rc|e].
  2: { injection E1; intros <- <-. apply F. rewrite Ap. eapply reads_taken. exact R. }
  assert (R1 : reads ((got ++ c_app c) ++ more rc) c1).
  { exact (content_reads C suite d0 k iv q E L0 Hiv Hq Ch Old Au _ c rc c1 R E2). }
  destruct rc as [[ct d]|].
  2: { injection E1; intros <- <-. cbn [more] in R1. rewrite app_nil_r in R1. split; [rewrite Ap; exact R1 | rewrite St; exact O]. }
  assert (E3 : exists rh, handle_content C ct d c1 = (rh, c2)).
  { unfold bind in E1. destruct (handle_content C ct d c1) as [[[]|e] c3]; injection E1; intros <- _; eauto. }
  destruct E3 as (rh & E3).
  pose proof (handle_app C ct d c1) as Ha. pose proof (handle_est ct d c1) as Ho. rewrite E3 in Ha, Ho. cbn [snd] in Ha, Ho.
  rewrite St in Ho. destruct (Ho O) as (O2 & Ec2).
  assert (R2 : reads (got ++ c_app c2) c2).
  { eapply reads_same; [exact Ec2|]. rewrite Ha, Ap. unfold delivered. rewrite St, O. cbn [andb more] in *. rewrite app_assoc. exact R1. }
  destruct r as [b|e]; [split; assumption|]. apply F. eapply reads_taken. exact R2.
Qed.
Lemma loops_heed got c x : loops C c x -> stepI got c ->
  match fst x with Ok _ => stepI got (snd x) | Err _ => taken (got ++ c_app (snd x)) end.
Proof.
  induction 1 as [c c1 H|c e c1 H|c c1 x H L IH]; intros S; apply guarded_heed in S; rewrite H in S; cbn [fst snd]; [exact S | exact S | exact (IH S)].
Qed.
(* the caller is in step, will be given nothing more, or has stopped *)
Definition heedI (ops : list op) (got : bytes) (c : conn) : Prop :=
  stepI got c \/ taken (got ++ c_app c) /\ (gone (c_state c) \/ silent_after ops).
Lemma silent_tail o ops : silent_after (o :: ops) -> silent_after ops.
Proof. intros H d I. apply (H d). right. exact I. Qed.
Lemma heed_step o ops got c : heeded C (o :: ops) c -> heedI (o :: ops) got c -> heedI ops (got ++ op_reads C o c) (after C o c).
Proof.
  intros [Hd _] R.
  destruct (op_eq_read o) as [->|Nr].
  { unfold after, op_reads, returned, step, data_to_read in *. rewrite bind_get, bind_modify in *. cbn [ret fst snd].
    destruct R as [[R O]|[T G]]; [left | right].
    - split; [|exact O]. cbn [c_app cset_app]. rewrite app_nil_r. eapply reads_same; [|exact R]. reflexivity.
    - cbn [c_app cset_app c_state]; rewrite app_nil_r. split; [exact T|]. destruct G as [G|G]; [left; exact G | right; eapply silent_tail; exact G]. }
  replace (op_reads C o c) with (@nil byte) by (destruct o; try reflexivity; congruence). rewrite app_nil_r.
  destruct R as [[R O]|[T [G|G]]].
  3: { right. rewrite others_app; [|intros d ->; exact (G d (or_introl eq_refl)) | exact Nr]. split; [exact T | right; eapply silent_tail; exact G]. }
  2: { right. split; [|left; apply gone_step; exact G].
       assert (Ha : c_app (after C o c) = c_app c); [|rewrite Ha; exact T].
       destruct o; try (apply others_app; [intros; discriminate | exact Nr]).
       unfold after, step. rewrite snd_ret. unfold gone in G. destruct (c_state c) eqn:Ec; try contradiction.
       - destruct can_recv; [contradiction|]. destruct (deaf_receive C d c) as (e & ->); [rewrite Ec; exact Logic.I | reflexivity].
       - assert (S : silent (c_out c) (c_app c) c) by (repeat split; assumption).
         apply (failed_receive C d (c_out c) (c_app c) c S). }
  assert (Sd : forall kk c', reads (got ++ c_app c') c' -> established (c_state c') = true -> stepI got (snd (send_content C kk c'))).
  { intros kk c' R' O'. pose proof (sending_content C kk c') as S. split; [|rewrite send_state; exact O'].
    replace (c_app (snd (send_content C kk c'))) with (c_app c') by (destruct S as (-> & _); reflexivity).
    eapply write_reads; [exact S | exact R']. }
  unfold after, step in *. destruct o; try congruence; rewrite ?snd_ret in *.
  - left. unfold initiate_connection. rewrite bind_get. unfold established in O. destruct (c_state c) eqn:Ec; try discriminate O; (split; [exact R | cbn; rewrite Ec; exact O]).
  - destruct d as [|b d]. { left. split; assumption. }
    assert (Cr : can_receive (c_state c) = true).
    { unfold established in O. destruct (c_state c); try discriminate; try reflexivity. destruct can_recv; [reflexivity | discriminate]. }
    destruct (receive_data_loops C (b :: d) c ltac:(discriminate) Cr) as (x & L & E1 & E2). rewrite E1.
    apply (loops_heed got _ x) in L; [|split; [eapply reads_same; [|exact R]; reflexivity | exact O]].
    destruct (fst x) as [u|e] eqn:Ef; [left; exact L|]. right. split; [exact L|]. right. exact (Hd e (E2 e eq_refl)).
  - left. apply Sd; assumption.
  - left. unfold data_to_send. rewrite bind_get, bind_modify. cbn [ret snd]. split; [eapply reads_same; [|exact R]; reflexivity | exact O].
  - left. unfold rekey. rewrite bind_get. destruct (negb _); split; assumption.
  - right. unfold close_receiving_end. rewrite bind_get. unfold is_post_handshake.
    apply reads_taken in R. unfold established in O. destruct (c_state c); try discriminate O; cbn; (split; [exact R | left; exact Logic.I]).
  - left.
    assert (K1 : keeps (stepI got) (set_state (Closed true true))) by (intros c1 [R1 O1]; split; [eapply reads_same; [|exact R1]; reflexivity | reflexivity]).
    assert (K2 : keeps (stepI got) (send_content C (KAlert WARNING CLOSE_NOTIFY))) by (intros c1 [R1 O1]; apply Sd; assumption).
    assert (H : stepI got c) by (split; assumption). revert H.
    match goal with |- _ -> stepI got (snd (?m c)) => cut (keeps (stepI got) m); [intros K; apply K|] end.
    pose proof (impl_preorder (stepI got)) as P. apply of_rel. unfold close_sending_end. reli P; try (apply to_rel; assumption).
    apply rel_modify. intros c9 [R1 O1]. destruct (c_state c9) eqn:Ec; try (split; [exact R1 | rewrite Ec; exact O1]).
    split; [eapply reads_same; [|exact R1]; reflexivity | exact O1].
Qed.
Lemma heed_run : forall ops got c, heeded C ops c -> heedI ops got c -> taken (got ++ readout C ops c ++ c_app (run C ops c)).
Proof.
  induction ops as [|o ops IH]; intros got c Hd R; cbn [run readout app].
  - destruct R as [[R _]|[T _]]; [eapply reads_taken; exact R | exact T].
  - pose proof (heed_step o ops got c Hd R) as R1. specialize (IH _ _ (proj2 Hd) R1). rewrite <- !app_assoc in IH |- *. exact IH.
Qed.
Lemma taken_prefix V : taken V -> prefix V (payload E).
Proof. intros (j & <-). exists (payload (skipn j E)). rewrite <- payload_app, firstn_skipn. reflexivity. Qed.
End Heeding.

Lemma prefix_trans (x y z : bytes) : prefix x y -> prefix y z -> prefix x z.
Proof. intros (u & ->) (v & ->). exists (u ++ v). rewrite app_assoc. reflexivity. Qed.
Lemma integrity_heed C ga gb a b opsA opsB : aead_sized C -> reachable C ga a -> reachable C gb b -> keyed a b -> room a ->
  established (c_state a) = true -> established (c_state b) = true -> c_app b = [] ->
  unforgeable C a (c_log (run C opsA a)) -> heeded C opsB b ->
  prefix (readout C opsB b ++ c_app (run C opsB b)) (written C opsA a).
Proof.
  intros As Ra Rb K Rm Sa Sb Ab (Fr & Un) Hd.
  destruct (keyed_setup C ga a b As Ra K Rm Fr) as (x & y & k & iv & q & Ex & Ey & Es & W & K1 & K2 & K3 & K4 & K5 & K6 & L1 & L2 & Us & Old).
  destruct (sealed_after C opsA a x As (proj1 (reachable_side C ga a Ra)) (est_post a Sa) Ex W) as (E & E1 & E2 & E3).
  specialize (Un x k Ex K1). rewrite E1 in Un.
  assert (T : heedI (cs_suite x) k iv q E opsB [] b).
  { left. split; [|exact Sb]. exists O, y. split; [exact Ey|]. split; [|unfold Q1; rewrite Ab; reflexivity].
    split; [exact Es|]. split; [exact K4|]. split; [exact K5|]. rewrite K6. destruct q. cbn. rewrite N.add_0_r. reflexivity. }
  eapply prefix_trans; [|exact E3]. apply taken_prefix.
  exact (heed_run C (cs_suite x) (cs_w x) k iv q E (c_log a) K2 K3 E2 Old Un opsB [] b Hd T).
Qed.

(* [c2] comes out of the receive loop entered with [c1], and what follows heeds
   its exception *)
Definition later_heed (C : crypto) (c1 c2 : conn) (ops : list op) : Prop :=
  c2 = c1 \/ exists x, loops C c1 x /\ c2 = snd x /\ (forall e, fst x = Err e -> silent_after ops).
Lemma later_heed_later C c1 c2 ops : later_heed C c1 c2 ops -> later C c1 c2.
Proof. intros [->|(x & L & -> & _)]; [left; reflexivity | right; exists x; auto]. Qed.
Lemma loops_connects2 C c x : loops C c x -> in_handshake (c_state c) = true -> c_app c = [] ->
  c_state (snd x) = Connected -> side_ok c ->
  exists c1, fresh c1 /\ c_app c1 = [] /\ side_ok c1 /\ (snd x = c1 \/ loops C c1 x).
Proof.
  induction 1 as [c c1 H|c e c1 H|c c1 x H L IH]; intros Hs Ha E Sd;
    destruct (guarded_connects C c Hs Ha) as (A & F); pose proof (guarded_side C c Sd) as S1; rewrite H in A, F, S1; cbn [snd] in *.
  - exists c1. repeat (split; [auto|]). left. reflexivity.
  - exists c1. repeat (split; [auto|]). left. reflexivity.
  - destruct (state_cases (c_state c1)) as [Hc|[Hc|Hc]].
    + apply IH; assumption.
    + exists c1. repeat (split; [auto|]). right. exact L.
    + apply (loops_done C c1 x L) in Hc. rewrite E in Hc. discriminate Hc.
Qed.
Lemma connect2 C g more : forall ops c, reachable C g c -> in_handshake (c_state c) = true -> c_app c = [] ->
  c_state (run C ops c) = Connected -> heeded C (ops ++ more) c ->
  exists c1 c2 rest, fresh c1 /\ c_app c1 = [] /\ side_ok c1 /\ later_heed C c1 c2 (rest ++ more) /\ run C rest c2 = run C ops c /\
    readout C (ops ++ more) c = readout C (rest ++ more) c2 /\ heeded C (rest ++ more) c2.
Proof.
  induction ops as [|o ops IH]; intros c R Hs Ha E Hd; cbn [run] in E.
  { rewrite E in Hs. discriminate Hs. }
  assert (Rd : (match o with ORead => returned C o c | _ => [] end) = []).
  { destruct o; try reflexivity. unfold returned, step, data_to_read. rewrite bind_get, bind_modify. exact Ha. }
  cbn [app readout run heeded] in *. destruct Hd as [Hd1 Hd2]. rewrite Rd.
  destruct (hs_step C g o c R Hs Ha) as [(Ha' & Hs')|[D|(K & d & c1' & -> & _)]].
  - destruct (IH (after C o c) (reachable_step C g c o R) Hs' Ha' E Hd2) as (c1 & c2 & rest & A1 & A2 & A3 & A4 & A5 & A6 & A7).
    exists c1, c2, rest. auto 8.
  - apply (done_run C g ops) in D; [|apply reachable_step; exact R]. rewrite E in D. discriminate D.
  - clear c1'. unfold after, step in K. rewrite snd_ret in K. destruct d as [|b d]. { cbn in K. rewrite K in Hs. discriminate Hs. }
    destruct (can_receive (c_state c)) eqn:Cr; [|destruct (c_state c); discriminate].
    destruct (receive_data_loops C (b :: d) c ltac:(discriminate) Cr) as (x & L & E1 & E2).
    rewrite E1 in K.
    destruct (loops_connects2 C _ x L Hs Ha K) as (c1 & F1 & F2 & F3 & F4); [exact (reachable_side C g c R)|].
    exists c1, (after C (ORecv (b :: d)) c), ops. repeat (split; [assumption|]). split; [|auto].
    assert (Ea : after C (ORecv (b :: d)) c = snd x) by (unfold after, step; rewrite snd_ret; exact E1). rewrite Ea.
    destruct F4 as [F4|F4]; [left; exact F4|]. right. exists x. split; [exact F4|]. split; [reflexivity|].
    intros e Ee. exact (Hd1 e (E2 e Ee)).
Qed.
