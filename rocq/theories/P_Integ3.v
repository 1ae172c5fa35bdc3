(* Integrity against an active attacker, the receiving side. *)
From Verif Require Import Base P_Base Iana Crypto Config Serial Ext Msg Hkdf Cipher Kex Sig Ocsp Transcript Conn
  S_Hist S_Conn S_Send S_Nonce S_Alert S_Auth S_Deliver S_Integrity P_Monad P_Frame P_Rec P_Send P_Nonce P_Pieces P_Alert P_Buf P_Hist P_Wire P_Count P_Integ P_Integ2.
From Verif Require P_Flight.

Lemma one_mfl C : rel mflR (receive_one C).
Proof. apply (stable_receive_one C mflR (mflR_stable C)); intros; exact (fun H => H). Qed.
Lemma one_count C : rel countR (receive_one C).
Proof. apply (stable_receive_one C countR (countR_stable C)); same_count. Qed.
Lemma step_mfl C o : rel mflR (step C o).
Proof. apply (stable_step C mflR o (mflR_stable C)); intros; exact (fun H => H). Qed.
Lemma step_count C o : rel countR (step C o).
Proof. apply (stable_step C countR o (countR_stable C)); same_count. Qed.
Lemma step_cnt C o : rel cntR (step C o).
Proof. apply (stable_step C cntR o (cnt_stable C)); same_cnt. Qed.

Section Reader.
Variable C : crypto.
Hypothesis As : aead_sized C.
Variables (suite : N) (d0 : dir) (k : bytes) (iv : N) (q : seq) (E L0 : list sealing).
Hypothesis Hiv : d_iv d0 = Some iv.
Hypothesis Hq : d_seq d0 = Some q.
Hypothesis Ch : chain suite d0 E.
Hypothesis Old : forall s, In s L0 -> se_key s = k ->
  exists n, n < q_next q /\ N.lxor iv n < 256 ^ 12 /\ se_nonce s = be_bytes 12 (N.lxor iv n).
Hypothesis Au : authentic C suite k (rev E ++ L0).
Hypothesis Us : usage_limit suite <> None.

Definition at_read (j : nat) (y : cs) : Prop :=
  cs_suite y = suite /\ d_key (cs_r y) = Some k /\ d_iv (cs_r y) = Some iv /\
  d_seq (cs_r y) = Some (mkSeq (q_next q + N.of_nat j) (q_limit q)).

Lemma nonce_eq a b : N.lxor iv a < 256 ^ 12 -> N.lxor iv b < 256 ^ 12 ->
  be_bytes 12 (N.lxor iv a) = be_bytes 12 (N.lxor iv b) -> a = b.
Proof.
  intros A B H. apply (lxor_inj iv). rewrite <- (of_be_bytes 12 (N.lxor iv a)) by exact A. rewrite H. apply of_be_bytes. exact B.
Qed.
Lemma decrypt_next j y ct aad p y' : at_read j y -> decrypt C ct aad y = (Ok p, y') ->
  exists s, nth_error E j = Some s /\ se_data s = p /\ at_read (S j) y'.
Proof.
  intros (A1 & A2 & A3 & A4) H. unfold decrypt in H. rewrite A2 in H.
  destruct (next_nonce (cs_r y)) as [[n|e] r] eqn:En; [|discriminate].
  apply next_nonce_ok in En. destruct En as (iv' & q' & B1 & B2 & B3 & B4 & B5 & B6).
  rewrite A3 in B1. injection B1; intros <-. rewrite A4 in B2. injection B2; intros <-. cbn [q_next q_limit] in *.
  rewrite A1 in H. destruct (cr_open C suite k n ct aad) as [p'|] eqn:Eo; [|discriminate].
  injection H; intros <- <-. clear H.
  assert (Hn : n = be_bytes 12 (N.lxor iv (q_next q + N.of_nat j))).
  { rewrite B5. unfold nonce_of. rewrite A3, A4. reflexivity. }
  destruct (Au n ct aad p' Eo) as (s & S1 & S2 & S3 & S4).
  assert (R : at_read (S j) (cs_set_r y r)).
  { split; [exact A1|]. rewrite B6. unfold bump_dir. rewrite A4. cbn [cs_set_r cs_r d_key d_iv d_seq q_next q_limit].
    repeat (split; [assumption|]). do 2 f_equal. lia. }
  apply in_app_iff in S1. destruct S1 as [S1|S1].
  - apply in_rev in S1. apply In_nth_error in S1. destruct S1 as (i & Hi).
    destruct (chain_nth suite E d0 i s Ch Hi) as (_ & _ & _ & N1 & N2).
    rewrite (dbump_some i d0 q Hq) in N1, N2. unfold nonce_of in N1. cbn [d_iv d_seq] in N1. rewrite Hiv in N1. cbn [q_next] in N1.
    destruct N2 as (? & iv2 & q2 & _ & N2 & N3 & _ & N4). cbn [d_iv d_seq] in N2, N3.
    rewrite Hiv in N2. injection N2; intros <-. injection N3; intros <-. cbn [q_next] in N4.
    assert (q_next q + N.of_nat i = q_next q + N.of_nat j) as Hij.
    { apply nonce_eq; [exact N4 | exact B4 |]. congruence. }
    assert (i = j) by lia. subst i. exists s. auto.
  - exfalso. destruct (Old s S1 S2) as (m & M1 & M2 & M3).
    assert (m = q_next q + N.of_nat j); [|lia]. apply nonce_eq; [exact M2 | exact B4 |]. congruence.
Qed.

(* [Q j V]: V may have been read once the next record to open is the j-th *)
Section Content.
Variable Q : nat -> bytes -> Prop.
Hypothesis Qnext : forall j V s, Q j V -> nth_error E j = Some s -> Q (S j) (V ++ payload1 s).
Definition readsQ (V : bytes) (c : conn) : Prop :=
  exists j y, c_cipher c = Some y /\ at_read j y /\ Q j V.
Definition more (r : option (N * bytes)) : bytes :=
  match r with Some (ct, f) => if ct =? CT_APPDATA then f else [] | None => [] end.
Lemma readsQ_same V c c' : c_cipher c' = c_cipher c -> readsQ V c -> readsQ V c'.
Proof. unfold readsQ. intros ->. auto. Qed.
Lemma record_readsQ V c r c' : readsQ V c -> read_next_record C c = (Ok r, c') -> readsQ (V ++ more r) c'.
Proof.
  intros (j & y & Ey & Ar & Ep) H. unfold read_next_record in H. rewrite bind_modify, bind_get in H.
  set (c1 := cset_in (skip_ccs (c_in c)) c) in *.
  assert (E1 : c_cipher c1 = Some y) by exact Ey. clearbody c1.
  assert (D : dec_on c1 = true). { unfold dec_on, must_decrypt. rewrite E1. destruct Ar as (_ & -> & _). reflexivity. }
  assert (No : readsQ (V ++ []) c1) by (rewrite app_nil_r; exists j, y; auto).
  destruct (blen (c_in c1) <? 5). { injection H; intros <- <-. exact No. }
  cbv zeta in H. rewrite D in H. destruct (_ <? _); [discriminate|].
  destruct (_ <? _). { injection H; intros <- <-. exact No. }
  rewrite bind_modify in H. set (c2 := cset_in _ c1) in H. assert (E2 : c_cipher c2 = Some y) by exact E1. clearbody c2.
  apply bind_ok in H. destruct H as ((ct & f) & c3 & H1 & H2).
  apply bind_ok in H1. destruct H1 as (inner & c4 & H1 & H3). apply lift_inv in H3. destruct H3 as [H3 ->].
  apply on_cipher_inv in H1. destruct H1 as [(_ & H1 & _)|(y1 & y' & F1 & F2 & ->)]; [discriminate|].
  assert (y1 = y) by congruence. subst y1.
  destruct (decrypt_next j y _ _ _ _ Ar F2) as (s & S1 & S2 & S3).
  destruct (ct =? CT_CCS); [discriminate|]. injection H2; intros <- <-.
  exists (S j), y'. split; [reflexivity|]. split; [exact S3|].
  replace (more (Some (ct, f))) with (payload1 s) by (unfold payload1; rewrite S2, H3; reflexivity).
  apply Qnext; assumption.
Qed.
Lemma fill_readsQ V : forall n c b c', readsQ V c -> fill_handshake n C c = (Ok b, c') -> readsQ V c'.
Proof.
  induction n as [|n IH]; intros c b c' R H; cbn [fill_handshake] in H; rewrite bind_get in H.
  - destruct (_ <? _); [discriminate|]. injection H; intros <- _. exact R.
  - destruct (_ <? _); [|injection H; intros <- _; exact R].
    apply bind_ok in H. destruct H as (r & c1 & H1 & H). apply (record_readsQ V c r c1 R) in H1.
    destruct r as [[ct f]|].
    + cbn [more] in H1. destruct (ct =? CT_HANDSHAKE) eqn:Ec; cbn [negb] in H; [|discriminate].
      apply N.eqb_eq in Ec. subst ct. change (CT_HANDSHAKE =? CT_APPDATA) with false in H1. cbv iota in H1. rewrite app_nil_r in H1.
      rewrite bind_modify in H. eapply IH; [|exact H]. eapply readsQ_same; [|exact H1]. reflexivity.
    + injection H; intros <- _. cbn [more] in H1. rewrite app_nil_r in H1. exact H1.
Qed.
Lemma content_readsQ V c r c' : readsQ V c -> read_next_content C c = (Ok r, c') -> readsQ (V ++ more r) c'.
Proof.
  intros R H. unfold read_next_content in H. apply bind_ok in H. destruct H as (r1 & c1 & H1 & H).
  apply (record_readsQ V c r1 c1 R) in H1. destruct r1 as [[ct f]|].
  2: { injection H; intros <- <-. exact H1. }
  rewrite bind_get in H. destruct (is_nil (c_inhs c1) && negb (ct =? CT_HANDSHAKE)) eqn:Ei.
  { injection H; intros <- <-. exact H1. }
  destruct (ct =? CT_HANDSHAKE) eqn:Ec; cbn [negb] in H; [|discriminate].
  apply N.eqb_eq in Ec. subst ct. cbn [more] in H1. change (CT_HANDSHAKE =? CT_APPDATA) with false in H1. cbv iota in H1. rewrite app_nil_r in H1.
  rewrite bind_modify, bind_get in H. set (c2 := cset_inhs _ c1) in H.
  assert (R2 : readsQ V c2) by (eapply readsQ_same; [|exact H1]; reflexivity). clearbody c2.
  destruct (_ <? _). { injection H; intros <- <-. cbn [more]. rewrite app_nil_r. exact R2. }
  apply bind_ok in H. destruct H as (full & c3 & H2 & H). apply (fill_readsQ V _ c2 full c3 R2) in H2.
  destruct full; cbn [negb] in H.
  2: { injection H; intros <- <-. cbn [more]. rewrite app_nil_r. exact H2. }
  rewrite bind_get in H. destruct (_ <? _); [discriminate|]. rewrite bind_modify in H. injection H; intros <- <-.
  cbn [more]. change (CT_HANDSHAKE =? CT_APPDATA) with false. cbv iota. rewrite app_nil_r. eapply readsQ_same; [|exact H2]. reflexivity.
Qed.

End Content.

Lemma firstn_next A (l : list A) j s : nth_error l j = Some s -> firstn (S j) l = firstn j l ++ [s].
Proof.
  revert j. induction l as [|a l IH]; intros j H; [destruct j; discriminate|]. destruct j as [|j].
  - injection H; intros ->. reflexivity.
  - cbn [nth_error] in H. specialize (IH j H). cbn [firstn app] in *. rewrite IH. reflexivity.
Qed.
Lemma payload_next j s : nth_error E j = Some s -> payload (firstn (S j) E) = payload (firstn j E) ++ payload1 s.
Proof. intro H. rewrite (firstn_next _ E j s H), payload_app. unfold payload at 2. cbn [map concat]. rewrite app_nil_r. reflexivity. Qed.
(* the records read so far are the first of those sealed *)
Definition Q1 (j : nat) (V : bytes) : Prop := payload (firstn j E) = V.
Definition readsI : bytes -> conn -> Prop := readsQ Q1.
Lemma reads_same V c c' : c_cipher c' = c_cipher c -> readsI V c -> readsI V c'.
Proof. apply readsQ_same. Qed.
Lemma content_reads V c r c' : readsI V c -> read_next_content C c = (Ok r, c') -> readsI (V ++ more r) c'.
Proof. apply content_readsQ. intros j W s H K. unfold Q1 in *. rewrite (payload_next j s K), H. reflexivity. Qed.

Definition open (s : state) : bool := established s && can_send s.
Lemma handle_open ct d c : open (c_state c) = true ->
  open (c_state (snd (handle_content C ct d c))) = true /\ c_cipher (snd (handle_content C ct d c)) = c_cipher c.
Proof.
  intro O. pose (P := fun c1 : conn => open (c_state c1) = true /\ c_cipher c1 = c_cipher c).
  assert (K : keeps P (handle_content C ct d)); [|apply K; split; [exact O | reflexivity]].
  clear O. unfold P. generalize (c_cipher c). clear c P. intro o.
  set (P := fun c1 : conn => open (c_state c1) = true /\ c_cipher c1 = o).
  apply of_rel. pose proof (impl_preorder P) as Q. unfold handle_content. reli Q.
  - unfold transcribe. reli Q; [apply rel_on_tr | apply rel_modify]; intros x H; exact H.
  - assert (B : forall k, rel (fun c c' => P c -> P c') (base_process k)).
    { intro k0. unfold base_process. reli Q. apply rel_modify. intros x (_ & H). split; [reflexivity | exact H]. }
    intros c1 H. pose proof H as (H1 & H2). unfold process. rewrite bind_get. unfold open in H1.
    destruct (c_state c1) eqn:Ec; try discriminate H1.
    + match goal with |- context [match ?k with KCcs => _ | _ => _ end] => destruct k end; try (apply B; exact H). unfold modify. cbn [snd]. exact H.
    + destruct can_recv; [|discriminate H1].
      match goal with |- context [match ?k with KCcs => _ | _ => _ end] => destruct k end; try (apply B; exact H). unfold modify. cbn [snd]. exact H.
Qed.

Definition side_ok (c : conn) : Prop := mfl_good c /\ countI c.
Lemma side_reading c c' : reading c c' -> mfl_good c -> mfl_good c'.
Proof. intros [R _] H. rewrite R. exact H. Qed.
Definition readI (got : bytes) (c : conn) : Prop :=
  readsI (got ++ c_app c) c /\ open (c_state c) = true \/
  gone (c_state c) /\ exists j, payload (firstn j E) = got ++ c_app c.
Definition loopI (got : bytes) (c : conn) : Prop :=
  readsI (got ++ c_app c) c /\ open (c_state c) = true \/
  c_state c = Failed /\ exists j, payload (firstn j E) = got ++ c_app c.

Lemma few_of c c' : cntR c c' -> few c' -> few c.
Proof. intros [L _]. unfold few. lia. Qed.
Lemma goes_failed got c code : side_ok c -> (forall y, c_cipher c = Some y -> cs_suite y = suite) -> can_send (c_state c) = true ->
  (exists j, payload (firstn j E) = got ++ c_app c) -> code < 256 -> few c ->
  loopI got (snd (fail C (Some code) c)).
Proof.
  intros (M & Cn) Hs Cs J Lc F.
  assert (Rm : room c). { apply P_Flight.few_room; [exact Cn | exact F |]. intros y Ey. rewrite (Hs y Ey). exact Us. }
  destruct (alert_goes C code c As (mfl_good_max _ M) (proj1 Cn) Rm Cs Lc) as (c' & H & S & _).
  right. pose proof (fail_app C (Some code) c) as A. rewrite H in *. cbn [snd] in *. split; [exact S|]. rewrite A. exact J.
Qed.
Lemma guarded_reads got c : side_ok c -> loopI got c -> few (snd (guarded C (receive_one C) c)) ->
  loopI got (snd (guarded C (receive_one C) c)).
Proof.
  intros Sd [[R O]|[Fa J]] F.
  2: { assert (S : silent (c_out c) (c_app c) c) by (repeat split; assumption).
       pose proof (failed_guarded C _ _ _ (failed_receive_one C (c_out c) (c_app c)) c S) as (K1 & _ & K3).
       right. rewrite K3. auto. }
  pose proof (one_mfl C c) as M1. pose proof (one_count C c) as N1.
  unfold guarded in *.
  destruct (receive_one C c) as [r c2] eqn:E1. cbn [snd] in M1, N1.
  unfold receive_one in E1. unfold bind at 1 in E1.
  destruct (read_next_content C c) as [rc c1] eqn:E2.
  pose proof (reading_content C c) as Rd. rewrite E2 in Rd. cbn [snd] in Rd.
  pose proof (read_content_app C c rc c1 E2) as Ap. pose proof (reading_state _ _ Rd) as St.
  assert (O' := O). unfold open in O'. apply andb_prop in O'. destruct O' as [Oe Os].
  destruct R as (j & y & Ey & Ar & Ep).
  destruct rc as [rc|e].
  2: { injection E1; intros <- <-. 
       set (al := match alert_of e with Some code => code | None => INTERNAL_ERROR end) in *.
       assert (La : al < 256) by (unfold al; rewrite alert_code; apply alert_for_lt).
       assert (G : loopI got (snd (fail C (Some al) c1))).
       { apply goes_failed; [split; [apply M1, Sd | apply N1, Sd] | | rewrite St; exact Os | exists j; rewrite Ap; exact Ep | exact La |].
         - intros y1 Ey1. destruct Rd as [_ Rd]. rewrite Ey, Ey1 in Rd. cbn [olift] in Rd. destruct Rd as [-> _]. exact (proj1 Ar).
         - eapply few_of; [apply (stable_fail C _ (cnt_stable C) (Some al) c1)|]. destruct (fail C (Some al) c1) as [[]]; exact F. }
       destruct (fail C (Some al) c1) as [[]]; exact G. }
  assert (R1 : readsI ((got ++ c_app c) ++ more rc) c1) by (eapply content_reads; [|exact E2]; exists j, y; auto).
  destruct rc as [[ct d]|].
  2: { injection E1; intros <- <-. left. cbn [more snd] in *. rewrite app_nil_r in R1. rewrite Ap, St. auto. }
  assert (E3 : exists rh, handle_content C ct d c1 = (rh, c2)).
  { unfold bind in E1. destruct (handle_content C ct d c1) as [[[]|e] c3]; injection E1; intros <- _; eauto. }
  destruct E3 as (rh & E3).
  pose proof (handle_app C ct d c1) as Ha. pose proof (handle_open ct d c1) as Ho. rewrite E3 in Ha, Ho. cbn [snd] in Ha, Ho.
  rewrite St in Ho. destruct (Ho O) as (O2 & Ec2).
  assert (R2 : readsI (got ++ c_app c2) c2).
  { eapply reads_same; [exact Ec2|]. rewrite Ha, Ap. unfold delivered. rewrite St, Oe. cbn [andb more] in *. rewrite app_assoc. exact R1. }
  destruct r as [b|e].
  { left. auto. }
  set (al := match alert_of e with Some code => code | None => INTERNAL_ERROR end) in *.
  assert (La : al < 256) by (unfold al; rewrite alert_code; apply alert_for_lt).
  assert (G : loopI got (snd (fail C (Some al) c2))).
  { destruct R2 as (j2 & y2 & Ey2 & Ar2 & Ep2). apply goes_failed; [split; [apply M1, Sd | apply N1, Sd] | | | exists j2; exact Ep2 | exact La |].
    - intros y1 Ey1. rewrite Ey2 in Ey1. injection Ey1; intros <-. exact (proj1 Ar2).
    - unfold open in O2. apply andb_prop in O2. apply O2.
    - eapply few_of; [apply (stable_fail C _ (cnt_stable C) (Some al) c2)|]. destruct (fail C (Some al) c2) as [[]]; exact F. }
  destruct (fail C (Some al) c2) as [[]]; exact G.
Qed.
Lemma guarded_side c : side_ok c -> side_ok (snd (guarded C (receive_one C) c)).
Proof.
  intros (M & N). split.
  - apply (stable_guarded C _ (mflR_stable C) _ (one_mfl C)). exact M.
  - apply (stable_guarded C _ (countR_stable C) _ (one_count C)). exact N.
Qed.
Lemma loops_reads got c x : loops C c x -> side_ok c -> loopI got c -> few (snd x) -> loopI got (snd x).
Proof.
  induction 1 as [c c1 H|c e c1 H|c c1 x H L IH]; intros Sd R F; pose proof (guarded_reads got c Sd R) as G; pose proof (guarded_side c Sd) as Sd1;
    rewrite H in G, Sd1; cbn [snd] in *.
  - apply G, F.
  - apply G, F.
  - apply IH; [exact Sd1 | | exact F]. apply G. eapply few_of; [apply (loops_cnt C c1 x L) | exact F].
Qed.

Lemma write_reads V c c' : sending c c' -> readsI V c -> readsI V c'.
Proof.
  intros (_ & O & _) (j & y & Ey & (A & B & D & F) & P). rewrite Ey in O. destruct (c_cipher c') as [y'|] eqn:E'; [|contradiction].
  cbn [olift] in O. destruct O as [O _]. exists j, y'. split; [exact E'|]. split; [|exact P]. rewrite O. repeat split; assumption.
Qed.
Lemma loop_read got c : loopI got c -> readI got c.
Proof. intros [H|[H K]]; [left; exact H | right; split; [rewrite H; exact I | exact K]]. Qed.

Definition op_reads (o : op) (c : conn) : bytes := match o with ORead => returned C o c | _ => [] end.
Lemma read_step got o c : o <> OCloseS -> side_ok c -> readI got c -> few (after C o c) -> readI (got ++ op_reads o c) (after C o c).
Proof.
  intros No Sd R F.
  destruct (op_eq_read o) as [->|Nr].
  { unfold after, op_reads, returned, step, data_to_read in *. rewrite bind_get, bind_modify in *. cbn [ret fst snd].
    destruct R as [[R O]|[G J]]; [left | right]; cbn [c_app cset_app c_state]; rewrite app_nil_r.
    - split; [eapply reads_same; [|exact R]; reflexivity | exact O].
    - split; assumption. }
  replace (op_reads o c) with (@nil byte) by (destruct o; try reflexivity; congruence). rewrite app_nil_r.
  destruct R as [[R O]|[G J]].
  2: { right. split; [apply gone_step; exact G|].
       assert (Ha : c_app (after C o c) = c_app c); [|rewrite Ha; exact J].
       destruct o; try (apply others_app; [intros; discriminate | exact Nr]).
       unfold after, step. rewrite snd_ret. unfold gone in G. destruct (c_state c) eqn:Ec; try contradiction.
       - destruct can_recv; [contradiction|]. destruct (deaf_receive C d c) as (e & ->); [rewrite Ec; exact I | reflexivity].
       - assert (S : silent (c_out c) (c_app c) c) by (repeat split; assumption).
         apply (failed_receive C d (c_out c) (c_app c) c S). }
  unfold after, step in *. destruct o; try congruence; rewrite ?snd_ret in *.
  - left. unfold initiate_connection. rewrite bind_get. unfold open in O. destruct (c_state c) eqn:Ec; try discriminate O; cbn; rewrite Ec; auto.
  - destruct d as [|b d]. { left. auto. }
    assert (Cr : can_receive (c_state c) = true).
    { unfold open in O. destruct (c_state c); try discriminate; try reflexivity. destruct can_recv; [reflexivity | discriminate]. }
    destruct (receive_data_loops C (b :: d) c ltac:(discriminate) Cr) as (x & L & E1 & _). rewrite E1 in *.
    apply loop_read. apply (loops_reads got _ x L); [exact Sd | | exact F]. left. split; [eapply reads_same; [|exact R]; reflexivity | exact O].
  - left. unfold send_data in *. pose proof (sending_content C (KAppData d) c) as S.
    rewrite send_state. split; [|exact O].
    replace (c_app (snd (send_content C (KAppData d) c))) with (c_app c) by (destruct S as (-> & _); reflexivity).
    eapply write_reads; [exact S | exact R].
  - left. unfold data_to_send. rewrite bind_get, bind_modify. cbn [ret snd]. split; [eapply reads_same; [|exact R]; reflexivity | exact O].
  - left. unfold rekey. rewrite bind_get. destruct (negb _); split; assumption.
  - right. unfold close_receiving_end. rewrite bind_get. unfold is_post_handshake.
    destruct R as (j & y & _ & _ & Ep). unfold open in O. destruct (c_state c); try discriminate O; cbn; split; eauto.
Qed.
Lemma side_step o c : side_ok c -> side_ok (after C o c).
Proof. intros (M & N). split; [apply (step_mfl C o c) | apply (step_count C o c)]; assumption. Qed.
Lemma read_run : forall ops got c, ~ In OCloseS ops -> side_ok c -> readI got c -> few (run C ops c) ->
  readI (got ++ readout C ops c) (run C ops c).
Proof.
  induction ops as [|o ops IH]; intros got c No Sd R F; cbn [run readout] in *; [rewrite app_nil_r; exact R|].
  rewrite app_assoc. apply IH; [intro; apply No; right; assumption | apply side_step; exact Sd | | exact F].
  apply (read_step got o c); [intros ->; apply No; left; reflexivity | exact Sd | exact R |].
  eapply few_of; [apply (rel_run C cntR cnt_pre (step_cnt C) ops) | exact F].
Qed.
Lemma read_prefix got c : readI got c -> prefix got (payload E).
Proof.
  assert (P : forall j, payload (firstn j E) = got ++ c_app c -> prefix got (payload E)).
  { intros j H. exists (c_app c ++ payload (skipn j E)). rewrite app_assoc, <- H, <- payload_app, firstn_skipn. reflexivity. }
  intros [[(j & y & _ & _ & H) _]|[_ (j & H)]]; apply (P j H).
Qed.
End Reader.
