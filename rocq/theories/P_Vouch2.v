(* A close_notify vouches for all that was written before it: the reader. *)
From Verif Require Import Base P_Base Iana Crypto Config Serial Ext Msg Hkdf Cipher Kex Sig Ocsp Transcript Conn
  S_Hist S_Conn S_State S_Send S_Nonce S_Alert S_Auth S_Deliver S_Integrity S_Entire S_Heed S_Close S_Vouch
  P_Monad P_Frame P_Rec P_Send P_Nonce P_Pieces P_Alert P_Buf P_Hist P_Wire P_Wp P_State P_Auth P_Count P_Integ P_Integ2 P_Integ3 P_Integ4 P_Entire P_Entire2 P_Heed P_Close P_Vouch.

Lemma handle_conn C ct d c : established (c_state c) = true ->
  c_state (snd (handle_content C ct d c)) = c_state c \/
  c_state (snd (handle_content C ct d c)) = Closed true true /\ ct = CT_ALERT /\ exists lv, d = [lv; x00].
Proof.
  intro S. unfold handle_content. rewrite bind_get. unfold bind at 1, lift.
  destruct (parse_content C _ ct d) as [k|e] eqn:P; [|left; reflexivity].
  assert (B : forall c1, established (c_state c1) = true -> c_state (snd (process C k c1)) = c_state c1 \/
     c_state (snd (process C k c1)) = Closed true true /\ ct = CT_ALERT /\ exists lv, d = [lv; x00]).
  { intros c1 S1. unfold process. rewrite bind_get.
    assert (G : c_state (snd (base_process k c1)) = c_state c1 \/
     c_state (snd (base_process k c1)) = Closed true true /\ ct = CT_ALERT /\ exists lv, d = [lv; x00]).
    { destruct k; try (left; reflexivity). cbn [base_process]. destruct (desc =? CLOSE_NOTIFY) eqn:E.
      - right. apply N.eqb_eq in E. subst desc. split; [reflexivity|].
        assert (ct = CT_ALERT) as -> by (eapply parse_alert_type; exact P). split; [reflexivity|]. eapply parse_close. exact P.
      - left. destruct (level =? WARNING); [destruct (memN _ _); reflexivity|]. destruct (_ && _); reflexivity. }
    destruct (c_state c1) as [ | | | | | | | | | | |[] w| ]; try discriminate S1; destruct k; try exact G; left; reflexivity. }
  assert (T : forall sd ty, c_state (snd (transcribe d sd ty c)) = c_state c).
  { intros sd ty. unfold transcribe, bind, on_tr, modify. destruct (tr_update _ _ _ _) as [[]?]; reflexivity. }
  unfold bind. destruct k; try (apply B; exact S).
  destruct (msg_type h) as [ty|]; [|left; reflexivity].
  pose proof (T (other_side (g_side (c_config c))) ty) as T1.
  destruct (transcribe d _ ty c) as [[[]|e] c1]; cbn [snd] in *; [|left; exact T1].
  rewrite <- T1 in S |- *. apply B. exact S.
Qed.

Section Vouching.
Variable C : crypto.
Variables (suite : N) (d0 : dir) (k : bytes) (iv : N) (q : seq) (E L0 : list sealing).
Hypothesis Hiv : d_iv d0 = Some iv.
Hypothesis Hq : d_seq d0 = Some q.
Hypothesis Ch : chain suite d0 E.
Hypothesis Old : forall s, In s L0 -> se_key s = k ->
  exists n, n < q_next q /\ N.lxor iv n < 256 ^ 12 /\ se_nonce s = be_bytes 12 (N.lxor iv n).
Hypothesis Au : authentic C suite k (rev E ++ L0).
Notation at_read := (at_read suite k iv q).
Notation reads := (readsI suite k iv q E).

Lemma at_read_fun j j' y : at_read j y -> at_read j' y -> j = j'.
Proof. intros (_ & _ & _ & A) (_ & _ & _ & B). rewrite A in B. injection B; intros H. lia. Qed.
(* the record that a content other than a handshake message comes from *)
Lemma record_at j y c ct f c' : c_cipher c = Some y -> at_read j y -> read_next_record C c = (Ok (Some (ct, f)), c') ->
  exists s y', nth_error E j = Some s /\ inner_plaintext (se_data s) = Ok (ct, f) /\ c_cipher c' = Some y' /\ at_read (S j) y'.
Proof.
  intros Ey Ar H. unfold read_next_record in H. rewrite bind_modify, bind_get in H.
  set (c1 := cset_in (skip_ccs (c_in c)) c) in *.
  assert (E1 : c_cipher c1 = Some y) by exact Ey. clearbody c1.
  assert (D : dec_on c1 = true). { unfold dec_on, must_decrypt. rewrite E1. destruct Ar as (_ & -> & _). reflexivity. }
  destruct (blen (c_in c1) <? 5); [discriminate H|].
  cbv zeta in H. rewrite D in H. destruct (_ <? _); [discriminate|].
  destruct (_ <? _); [discriminate H|].
  rewrite bind_modify in H. set (c2 := cset_in _ c1) in H. assert (E2 : c_cipher c2 = Some y) by exact E1. clearbody c2.
  apply bind_ok in H. destruct H as ((ct1 & f1) & c3 & H1 & H2).
  apply bind_ok in H1. destruct H1 as (inner & c4 & H1 & H3). apply lift_inv in H3. destruct H3 as [H3 ->].
  apply on_cipher_inv in H1. destruct H1 as [(_ & H1 & _)|(y1 & y' & F1 & F2 & ->)]; [discriminate|].
  assert (y1 = y) by congruence. subst y1.
  destruct (decrypt_next C suite d0 k iv q E L0 Hiv Hq Ch Old Au j y _ _ _ _ Ar F2) as (s & S1 & S2 & S3).
  destruct (ct1 =? CT_CCS); [discriminate|]. injection H2; intros <- <- <-.
  exists s, y'. split; [exact S1|]. split; [rewrite S2; exact H3|]. split; [reflexivity | exact S3].
Qed.
Lemma content_at j y c ct f c' : c_cipher c = Some y -> at_read j y -> read_next_content C c = (Ok (Some (ct, f)), c') -> ct <> CT_HANDSHAKE ->
  exists s y', nth_error E j = Some s /\ inner_plaintext (se_data s) = Ok (ct, f) /\ c_cipher c' = Some y' /\ at_read (S j) y'.
Proof.
  intros Ey Ar H Nh. unfold read_next_content in H. apply bind_ok in H. destruct H as (r1 & c1 & H1 & H).
  destruct r1 as [[ct1 f1]|]; [|discriminate H].
  rewrite bind_get in H. destruct (is_nil (c_inhs c1) && negb (ct1 =? CT_HANDSHAKE)) eqn:Ei.
  { injection H; intros <- <- <-. exact (record_at j y c _ _ _ Ey Ar H1). }
  exfalso. destruct (ct1 =? CT_HANDSHAKE) eqn:Ec; cbn [negb] in H; [|discriminate].
  rewrite bind_modify, bind_get in H. set (c2 := cset_inhs _ c1) in H. clearbody c2.
  destruct (_ <? _); [discriminate H|].
  apply bind_ok in H. destruct H as (full & c3 & H2 & H).
  destruct full; cbn [negb] in H; [|discriminate H].
  rewrite bind_get in H. destruct (_ <? _); [discriminate|]. rewrite bind_modify in H. injection H; intros _ _ Hc. congruence.
Qed.

(* a close_notify is among the first [j] records *)
Definition marked (j : nat) : Prop := exists i s, (i < j)%nat /\ nth_error E i = Some s /\ closing s.
Definition vouched (s : state) (j : nat) : Prop := match s with Closed true _ => marked j | _ => True end.
Lemma marked_le j j' : (j <= j')%nat -> marked j -> marked j'.
Proof. intros L (i & s & A & B & D). exists i, s. split; [lia | auto]. Qed.
Lemma vouched_le s j j' : (j <= j')%nat -> vouched s j -> vouched s j'.
Proof. intros L. destruct s as [ | | | | | | | | | | |[] w| ]; cbn; auto. apply marked_le. exact L. Qed.

Definition stepV (got : bytes) (c : conn) : Prop :=
  established (c_state c) = true /\
  exists j y, c_cipher c = Some y /\ at_read j y /\ payload (firstn j E) = got ++ c_app c /\ vouched (c_state c) j.
Definition restV (got : bytes) (c : conn) : Prop :=
  is_post_handshake c = true /\ exists j, payload (firstn j E) = got ++ c_app c /\ vouched (c_state c) j.
Lemma step_rest got c : stepV got c -> restV got c.
Proof. intros (O & j & y & _ & _ & A & B). split; [apply est_post; exact O|]. exists j. auto. Qed.
Lemma reads_le V c r c' j y : c_cipher c = Some y -> at_read j y -> read_next_content C c = (Ok r, c') ->
  payload (firstn j E) = V ->
  exists j' y', c_cipher c' = Some y' /\ at_read j' y' /\ (j <= j')%nat /\ payload (firstn j' E) = V ++ more r.
Proof.
  intros Ey Ar H P.
  destruct (content_reads C suite d0 k iv q E L0 Hiv Hq Ch Old Au V c r c') as (j' & y' & A & B & D); [exists j, y; auto | exact H|].
  exists j', y'. repeat (split; [assumption|]). split; [|exact D].
  pose proof (reading_content C c) as (_ & O). rewrite H in O. cbn [snd] in O. rewrite Ey, A in O. cbn [olift] in O. destruct O as (_ & _ & _ & _ & O).
  destruct Ar as (_ & _ & _ & Ar). destruct B as (_ & _ & _ & B). rewrite Ar, B in O. cbn [seq_le q_next q_limit] in O. lia.
Qed.
Lemma fail_rest got e c : restV got c ->
  restV got (snd (fail C (Some match alert_of e with Some code => code | None => INTERNAL_ERROR end) c)).
Proof.
  intros (P & j & A & B). set (al := Some _). pose proof (fail_app C al c) as Fa.
  unfold restV, is_post_handshake in *. rewrite Fa. clear Fa. unfold fail, bind, al. pose proof (send_state C (KAlert FATAL match alert_of e with Some code => code | None => INTERNAL_ERROR end) c) as S.
  destruct (send_content C _ c) as [[[]|e1] c1]; cbn [snd] in *; [split; [reflexivity | exists j; split; [exact A | exact Logic.I]] | rewrite S; split; [exact P | exists j; auto]].
Qed.
Lemma guarded_vouch got c : stepV got c ->
  match guarded C (receive_one C) c with
  | (Ok _, c') => stepV got c'
  | (Err _, c') => restV got c'
  end.
Proof.
  intros (O & j & y & Ey & Ar & Ep & Vo). unfold guarded.
  destruct (receive_one C c) as [r c2] eqn:E1.
  unfold receive_one in E1. unfold bind at 1 in E1.
  destruct (read_next_content C c) as [rc c1] eqn:E2.
  pose proof (reading_content C c) as Rd. rewrite E2 in Rd. cbn [snd] in Rd.
  pose proof (read_content_app C c rc c1 E2) as Ap. pose proof (reading_state _ _ Rd) as St.
  assert (F : forall (e : exn) c', restV got c' ->
    match (match fail C (Some match alert_of e with Some code => code | None => INTERNAL_ERROR end) c' with
             | (Ok _, c2) => (Err e : res bool, c2)
             | (Err e2, c2) => (Err e2, c2)
             end) with (Ok _, c') => stepV got c' | (Err _, c') => restV got c' end).
  { intros e c' T. pose proof (fail_rest got e c' T) as K. destruct (fail C _ c') as [[]]; exact K. }
  destruct rc as [rc|e].
  2: { injection E1; intros <- <-. apply F. split; [apply est_post; rewrite St; exact O|]. exists j. rewrite Ap, St. auto. }
  destruct (reads_le _ c rc c1 j y Ey Ar E2 Ep) as (j1 & y1 & Ey1 & Ar1 & Lj & Ep1).
  destruct rc as [[ct d]|].
  2: { injection E1; intros <- <-. cbn [more] in Ep1. rewrite app_nil_r in Ep1. split; [rewrite St; exact O|].
       exists j1, y1. rewrite Ap, St. repeat (split; [assumption|]). eapply vouched_le; eassumption. }
  assert (E3 : exists rh, handle_content C ct d c1 = (rh, c2)).
  { unfold bind in E1. destruct (handle_content C ct d c1) as [[[]|e] c3]; injection E1; intros <- _; eauto. }
  destruct E3 as (rh & E3).
  pose proof (handle_app C ct d c1) as Ha. pose proof (handle_est C ct d c1) as Ho. pose proof (handle_conn C ct d c1) as Hc. rewrite E3 in Ha, Ho, Hc. cbn [snd] in Ha, Ho, Hc.
  rewrite St in Ho, Hc. destruct (Ho O) as (O2 & Ec2). specialize (Hc O).
  assert (R2 : stepV got c2).
  { split; [exact O2|]. exists j1, y1. split; [congruence|]. split; [exact Ar1|].
    split; [rewrite Ha, Ap; unfold delivered; rewrite St, O; cbn [andb more] in *; rewrite app_assoc; exact Ep1|].
    destruct Hc as [->|(-> & -> & lv & ->)]; [eapply vouched_le; eassumption|].
    destruct (content_at j y c _ _ c1 Ey Ar E2 ltac:(discriminate)) as (s & y2 & S1 & S2 & S3 & S4).
    assert (y2 = y1) by congruence. subst y2. rewrite (at_read_fun _ _ _ Ar1 S4).
    exists j, s. split; [lia|]. split; [exact S1|]. exists lv. exact S2. }
  destruct r as [b|e]; [exact R2|]. apply F. apply step_rest. exact R2.
Qed.
Lemma loops_vouch got c x : loops C c x -> stepV got c ->
  match fst x with Ok _ => stepV got (snd x) | Err _ => restV got (snd x) end.
Proof.
  induction 1 as [c c1 H|c e c1 H|c c1 x H L IH]; intros S; apply guarded_vouch in S; rewrite H in S; cbn [fst snd]; [exact S | exact S | exact (IH S)].
Qed.
Definition vouchI (ops : list op) (got : bytes) (c : conn) : Prop :=
  stepV got c \/ restV got c /\ (gone (c_state c) \/ silent_after ops).
Lemma quiet_state o c : (forall d, o <> ORecv d) -> o <> OCloseS -> is_post_handshake c = true ->
  c_state (after C o c) = c_state c \/ gone (c_state (after C o c)).
Proof.
  intros N1 N2 P. unfold after, step. destruct o; rewrite ?snd_ret; try (left; reflexivity).
  - left. unfold initiate_connection. rewrite bind_get. unfold is_post_handshake in P. destruct (c_state c) eqn:Ec; try discriminate P; cbn; exact Ec.
  - exfalso. exact (N1 d eq_refl).
  - left. apply send_state.
  - left. unfold rekey. rewrite bind_get. destruct (negb _); reflexivity.
  - right. unfold close_receiving_end. rewrite bind_get, P. cbn [negb]. destruct (c_state c); exact Logic.I.
  - congruence.
Qed.
Lemma vouch_post ops got c : vouchI ops got c -> is_post_handshake c = true.
Proof. intros [(O & _)|[(P & _) _]]; [apply est_post; exact O | exact P]. Qed.
Lemma vouch_step o ops got c : o <> OCloseS -> heeded C (o :: ops) c -> vouchI (o :: ops) got c ->
  vouchI ops (got ++ op_reads C o c) (after C o c).
Proof.
  intros Nc [Hd _] R. pose proof (vouch_post _ _ _ R) as Po.
  destruct (op_eq_read o) as [->|Nr].
  { unfold after, op_reads, returned, step, data_to_read in *. rewrite bind_get, bind_modify in *. cbn [ret fst snd].
    destruct R as [(O & j & y & A & B & D & F)|[(_ & j & D & F) G]]; [left | right].
    - split; [exact O|]. exists j, y. cbn [c_app cset_app c_cipher c_state]. rewrite app_nil_r. auto.
    - split; [split; [exact Po|]; exists j; cbn [c_app cset_app c_state]; rewrite app_nil_r; auto|].
      destruct G as [G|G]; [left; exact G | right; eapply silent_tail; exact G]. }
  replace (op_reads C o c) with (@nil byte) by (destruct o; try reflexivity; congruence). rewrite app_nil_r.
  destruct R as [R|[(_ & j & T & Vo) [G|G]]].
  3: { right. assert (Nv : forall d, o <> ORecv d) by (intros d ->; exact (G d (or_introl eq_refl))).
       split; [|right; eapply silent_tail; exact G]. pose proof (others_app C o c Nv Nr) as Ha.
       unfold restV, is_post_handshake. rewrite Ha. destruct (quiet_state o c Nv Nc Po) as [->|K].
       - split; [exact Po | exists j; auto].
       - destruct (c_state (after C o c)) as [ | | | | | | | | | | |[] w| ]; try destruct K; (split; [reflexivity | exists j; split; [exact T | exact Logic.I]]). }
  2: { right. pose proof (gone_step C o c G) as G'. split; [|left; exact G']. split; [|exists j; split].
       - unfold is_post_handshake. destruct (c_state (after C o c)); try destruct G'; reflexivity.
       - assert (Ha : c_app (after C o c) = c_app c); [|rewrite Ha; exact T].
         destruct o; try (apply others_app; [intros; discriminate | exact Nr]).
         unfold after, step. rewrite snd_ret. unfold gone in G. destruct (c_state c) eqn:Ec; try contradiction.
         + destruct can_recv; [contradiction|]. destruct (deaf_receive C d c) as (e & ->); [rewrite Ec; exact Logic.I | reflexivity].
         + assert (S : silent (c_out c) (c_app c) c) by (repeat split; assumption).
           apply (failed_receive C d (c_out c) (c_app c) c S).
       - destruct (c_state (after C o c)) as [ | | | | | | | | | | |[] w| ]; try exact Logic.I. destruct G'. }
  pose proof R as (O & j & y & Ey & Ar & Ep & Vo).
  unfold after, step in *. destruct o; try congruence; rewrite ?snd_ret in *.
  - left. unfold initiate_connection. rewrite bind_get. unfold is_post_handshake in Po. destruct (c_state c) eqn:Ec; try discriminate Po; exact R.
  - destruct d as [|b d]. { left. exact R. }
    assert (Cr : can_receive (c_state c) = true).
    { unfold established in O. destruct (c_state c); try discriminate; try reflexivity. destruct can_recv; [reflexivity | discriminate]. }
    destruct (receive_data_loops C (b :: d) c ltac:(discriminate) Cr) as (x & L & E1 & E2). rewrite E1.
    apply (loops_vouch got _ x) in L; [|exact R].
    destruct (fst x) as [u|e] eqn:Ef; [left; exact L|]. right. split; [exact L|]. right. exact (Hd e (E2 e eq_refl)).
  - left. unfold send_data. pose proof (sending_content C (KAppData d) c) as S. pose proof (send_state C (KAppData d) c) as Ss.
    destruct (write_reads suite k iv q E _ _ _ S (ex_intro _ j (ex_intro _ y (conj Ey (conj Ar Ep))))) as (j' & y' & A & B & D).
    split; [rewrite Ss; exact O|]. exists j', y'. split; [exact A|]. split; [exact B|].
    assert (j' = j) as ->.
    { destruct S as (_ & Oc & _). rewrite Ey, A in Oc. cbn [olift] in Oc. destruct Oc as [Oc _]. eapply at_read_fun; [exact B|]. rewrite Oc. exact Ar. }
    rewrite Ss. split; [|exact Vo]. replace (c_app (snd (send_content C (KAppData d) c))) with (c_app c) by (destruct S as (-> & _); reflexivity). exact Ep.
  - left. exact R.
  - left. unfold rekey. rewrite bind_get. destruct (negb _); exact R.
  - right. unfold close_receiving_end. rewrite bind_get, Po. cbn [negb]. 
    destruct (c_state c); try discriminate O; cbn [set_state modify snd]; (split; [split; [reflexivity | exists j; split; [exact Ep | exact Logic.I]] | left; exact Logic.I]).
Qed.
Lemma vouch_run : forall ops got c, ~ In OCloseS ops -> heeded C ops c -> vouchI ops got c ->
  restV (got ++ readout C ops c) (run C ops c).
Proof.
  induction ops as [|o ops IH]; intros got c No Hd R; cbn [run readout].
  - rewrite app_nil_r. destruct R as [R|[R _]]; [apply step_rest; exact R | exact R].
  - rewrite app_assoc. apply IH; [intro; apply No; right; assumption | exact (proj2 Hd)|].
    apply (vouch_step o ops got c); [intros ->; apply No; left; reflexivity | exact Hd | exact R].
Qed.
End Vouching.

Lemma written_app C o2 : forall o1 a, written C (o1 ++ o2) a = written C o1 a ++ written C o2 (run C o1 a).
Proof. induction o1 as [|o o1 IH]; intro a; [reflexivity|]. cbn [app written run]. rewrite IH, app_assoc. reflexivity. Qed.
Lemma vouch C ga gb a b opsA opsB : aead_sized C -> reachable C ga a -> reachable C gb b -> keyed a b -> room a ->
  established (c_state a) = true -> c_state b = Connected -> c_app b = [] ->
  unforgeable C a (c_log (run C opsA a)) -> heeded C opsB b -> ~ In OCloseS opsB ->
  was_closed (c_state (run C opsB b)) ->
  exists o1 o o2, last_call C opsA a o1 o o2 /\
    prefix (written C o1 a) (readout C opsB b ++ c_app (run C opsB b)).
Proof.
  intros As Ra Rb K Rm Sa Sb Ab (Fr & Un) Hd No (w & Cl).
  destruct (keyed_setup C ga a b As Ra K Rm Fr) as (x & y & k & iv & q & Ex & Ey & Es & W & K1 & K2 & K3 & K4 & K5 & K6 & L1 & L2 & Us & Old).
  destruct (marks_run C As a x W (proj1 (reachable_side C ga a Ra)) (est_post a Sa) Ex opsA) as (Wr & E & E1 & Mk).
  assert (E2 : chain (cs_suite x) (cs_w x) E).
  { destruct Wr as ((E' & z & _ & _ & _ & A & B & _) & _).
    assert (E' = E) as <-; [|exact B]. rewrite E1 in A. apply app_inv_tail in A. symmetry. apply rev_eq. exact A. }
  specialize (Un x k Ex K1). rewrite E1 in Un.
  assert (T : vouchI (cs_suite x) k iv q E opsB [] b).
  { left. split; [rewrite Sb; reflexivity|]. exists O, y. split; [exact Ey|]. split; [|rewrite Ab, Sb; split; [reflexivity | exact Logic.I]].
    split; [exact Es|]. split; [exact K4|]. split; [exact K5|]. rewrite K6. destruct q. cbn. rewrite N.add_0_r. reflexivity. }
  destruct (vouch_run C (cs_suite x) (cs_w x) k iv q E (c_log a) K2 K3 E2 Old Un opsB [] b No Hd T) as (_ & j & J & V).
  rewrite Cl in V. destruct V as (i & s & Li & Hi & Hs). destruct (Mk i s Hi Hs) as (o1 & o & o2 & -> & B & D).
  exists o1, o, o2. split; [split; [reflexivity | exact B]|]. cbn [app] in J. rewrite <- J, <- D.
  exists (payload (skipn i (firstn j E))). rewrite <- payload_app. f_equal.
  replace (firstn i E) with (firstn i (firstn j E)) by (rewrite firstn_firstn; f_equal; lia). symmetry. apply firstn_skipn.
Qed.
Lemma prefix_antisym (x y : bytes) : prefix x y -> prefix y x -> x = y.
Proof.
  intros (u & ->) (v & H). rewrite <- app_assoc in H. rewrite <- (app_nil_r x) in H at 1. apply app_inv_head in H.
  symmetry in H. apply app_eq_nil in H. destruct H as [-> _]. rewrite app_nil_r. reflexivity.
Qed.
Lemma vouch_all C ga gb a b opsA opsB : aead_sized C -> reachable C ga a -> reachable C gb b -> keyed a b -> room a ->
  established (c_state a) = true -> c_state b = Connected -> c_app b = [] ->
  unforgeable C a (c_log (run C opsA a)) -> heeded C opsB b -> ~ In OCloseS opsB ->
  was_closed (c_state (run C opsB b)) -> last_words C opsA a ->
  readout C opsB b ++ c_app (run C opsB b) = written C opsA a.
Proof.
  intros As Ra Rb K Rm Sa Sb Ab Un Hd No Cl Nw.
  destruct (vouch C ga gb a b opsA opsB As Ra Rb K Rm Sa Sb Ab Un Hd No Cl) as (o1 & o & o2 & (E & B) & D).
  apply prefix_antisym.
  - apply (integrity_heed C ga gb); try assumption. rewrite Sb. reflexivity.
  - replace (written C opsA a) with (written C o1 a); [exact D|].
    rewrite E, written_app. cbn [written]. rewrite <- run_snoc, (Nw o1 o o2 (conj E B)).
    assert (Z : match o with OSend d => if can_send_app (c_state (run C o1 a)) then d else [] | _ => [] end = []).
    { destruct B as [->|B]; [reflexivity|]. destruct o; try reflexivity.
      rewrite run_snoc in B. unfold after, step in B. rewrite snd_ret in B. unfold send_data in B. rewrite send_state in B.
      rewrite B. reflexivity. }
    rewrite Z, !app_nil_r. reflexivity.
Qed.
