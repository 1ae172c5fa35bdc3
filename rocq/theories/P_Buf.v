(* Buffers, failed and closed connections. *)
From Verif Require Import Base P_Base Iana Crypto Config Serial Ext Msg Hkdf Cipher Kex Sig Ocsp Transcript Conn S_Hist S_Conn P_Monad P_Frame P_Rec.

(* --- C07 --------------------------------------------------------------- *)
Definition grows (f : conn -> bytes) (c c' : conn) : Prop := exists x, f c' = f c ++ x.
Lemma grows_pre f : preorder (grows f).
Proof.
  split; [intro; exists []; symmetry; apply app_nil_r|].
  intros a b c [x X] [y Y]. exists (x ++ y). rewrite Y, X, app_assoc. reflexivity.
Qed.
Ltac grows0 := intros; exists []; symmetry; apply app_nil_r.
Lemma grows_out_stable C : stable C (grows c_out).
Proof.
  apply any_stable. split; try grows0. apply grows_pre. intros c v. exists v. reflexivity.
Qed.
Lemma grows_app_stable C : stable C (grows c_app).
Proof. apply any_stable. split; try grows0. apply grows_pre. Qed.

Lemma step_out C o c : o <> OFlush -> grows c_out c (after C o c).
Proof.
  intro Ho. pose proof (grows_out_stable C) as S. pose proof (grows_pre c_out) as P.
  assert (R : forall m : M unit, rel (grows c_out) m -> grows c_out c (snd ((m ;; ret ([]:bytes)) c))).
  { intros m H. apply (rel_bind _ P _ _ m (fun _ => ret [])); [exact H | intro; apply (rel_ret _ P)]. }
  unfold after, step. destruct o; try congruence; try apply R.
  - apply (stable_initiate_connection C _ S).
  - apply (stable_receive_data C _ S); try grows0; grows0.
  - apply (stable_send_data C _ S).
  - cbn. exists []. symmetry. apply app_nil_r.
  - apply (stable_rekey C _ S).
  - apply (stable_close_receiving_end C _ S).
  - apply (stable_close_sending_end C _ S).
Qed.
Lemma step_app C o c : o <> ORead -> grows c_app c (after C o c).
Proof.
  intro Ho. pose proof (grows_app_stable C) as S. pose proof (grows_pre c_app) as P.
  assert (R : forall m : M unit, rel (grows c_app) m -> grows c_app c (snd ((m ;; ret ([]:bytes)) c))).
  { intros m H. apply (rel_bind _ P _ _ m (fun _ => ret [])); [exact H | intro; apply (rel_ret _ P)]. }
  unfold after, step. destruct o; try congruence; try apply R.
  - apply (stable_initiate_connection C _ S).
  - apply (stable_receive_data C _ S); try grows0; intros x v; exists v; reflexivity.
  - apply (stable_send_data C _ S).
  - cbn. exists []. symmetry. apply app_nil_r.
  - apply (stable_rekey C _ S).
  - apply (stable_close_receiving_end C _ S).
  - apply (stable_close_sending_end C _ S).
Qed.

Lemma op_eq_flush (o : op) : o = OFlush \/ o <> OFlush.
Proof. destruct o; auto; right; discriminate. Qed.
Lemma op_eq_read (o : op) : o = ORead \/ o <> ORead.
Proof. destruct o; auto; right; discriminate. Qed.

Lemma drained_out C ops : forall c,
  exists e, emits C ops c e /\ flushed C ops c ++ c_out (run C ops c) = c_out c ++ e.
Proof.
  induction ops as [|o ops IH]; intro c; cbn [flushed run].
  - exists []. split; [constructor | symmetry; apply app_nil_r].
  - destruct (IH (after C o c)) as (e & He & E).
    destruct (op_eq_flush o) as [->|Ho].
    + exists e. split; [constructor; exact He|].
      rewrite <- app_assoc, E. reflexivity.
    + destruct (step_out C o c Ho) as [x X]. exists (x ++ e). split.
      * econstructor; eassumption.
      * replace (match o with OFlush => returned C o c | _ => [] end) with (@nil byte)
          by (destruct o; auto; congruence).
        cbn [app]. rewrite E, X, app_assoc. reflexivity.
Qed.
Lemma drained_app C ops : forall c,
  exists e, delivers C ops c e /\ readout C ops c ++ c_app (run C ops c) = c_app c ++ e.
Proof.
  induction ops as [|o ops IH]; intro c; cbn [readout run].
  - exists []. split; [constructor | symmetry; apply app_nil_r].
  - destruct (IH (after C o c)) as (e & He & E).
    destruct (op_eq_read o) as [->|Ho].
    + exists e. split; [constructor; exact He|].
      rewrite <- app_assoc, E. reflexivity.
    + destruct (step_app C o c Ho) as [x X]. exists (x ++ e). split.
      * econstructor; eassumption.
      * replace (match o with ORead => returned C o c | _ => [] end) with (@nil byte)
          by (destruct o; auto; congruence).
        cbn [app]. rewrite E, X, app_assoc. reflexivity.
Qed.

(* --- C08 --------------------------------------------------------------- *)
Definition app_same (c c' : conn) : Prop := c_app c' = c_app c.
Lemma app_same_pre : preorder app_same.
Proof. split; unfold app_same; congruence. Qed.
Lemma reading_app c c' : reading c c' -> app_same c c'.
Proof. intros [E _]. unfold app_same. rewrite E. reflexivity. Qed.
Lemma reading_state c c' : reading c c' -> c_state c' = c_state c.
Proof. intros [E _]. rewrite E. reflexivity. Qed.

Lemma app_same_stable C : stable C app_same.
Proof. apply any_stable. split; try reflexivity. apply app_same_pre. Qed.

Lemma parse_appdata C pct d : parse_content C pct CT_APPDATA d = Ok (KAppData d).
Proof.
  unfold parse_content.
  change (CT_APPDATA =? CT_CCS) with false. change (CT_APPDATA =? CT_ALERT) with false.
  change (CT_APPDATA =? CT_HANDSHAKE) with false. change (CT_APPDATA =? CT_APPDATA) with true.
  cbn [stream_of read_all s_limits raw_read s_data s_pos with_pos rbind].
  unfold assert_eof. cbn [s_pos s_data with_pos]. rewrite bdrop_0, btake_all by lia.
  rewrite N.add_0_l, N.eqb_refl. reflexivity.
Qed.
Lemma parse_other C pct ct d k : parse_content C pct ct d = Ok k -> ct <> CT_APPDATA ->
  match k with KAppData _ => False | _ => True end.
Proof.
  unfold parse_content. intros H Hne. apply N.eqb_neq in Hne.
  match type of H with match ?x with _ => _ end = _ => destruct x as [k'|e] eqn:E end;
    [|destruct (is_buffer_error e); discriminate].
  injection H; intros; subst; clear H.
  match type of E with rbind ?x _ = _ => destruct x as [[k1 s1]|] eqn:E1; [|discriminate] end.
  cbn [rbind] in E. destruct (assert_eof s1); [|discriminate]. injection E; intros; subst; clear E.
  rewrite Hne in E1.
  destruct (ct =? CT_CCS).
  { unfold parse_ccs in E1. destruct (read_exactly 1 _) as [[? ?]|]; [|discriminate]. cbn [rbind] in E1.
    destruct (beqb _ _); [|discriminate]. injection E1; intros; subst; exact I. }
  destruct (ct =? CT_ALERT).
  { unfold parse_alert in E1. destruct (read_enum _ _ _ _) as [[? ?]|]; [|discriminate]. cbn [rbind] in E1.
    destruct (read_int _ _) as [[? ?]|]; [|discriminate]. cbn [rbind] in E1.
    injection E1; intros; subst; exact I. }
  destruct (ct =? CT_HANDSHAKE).
  { destruct (parse_hs _ _ _) as [[? ?]|]; [|discriminate]. cbn [rbind] in E1.
    injection E1; intros; subst; exact I. }
  destruct (ct =? CT_HEARTBEAT).
  { unfold parse_heartbeat in E1. destruct (read_enum _ _ _ _) as [[? ?]|]; [|discriminate]. cbn [rbind] in E1.
    destruct (read_var _ _) as [[? ?]|]; [|discriminate]. cbn [rbind] in E1.
    destruct (read_all _) as [? ?]. destruct (_ <? _); [discriminate|]. destruct (_ <? _); [discriminate|].
    injection E1; intros; subst; exact I. }
  destruct (ct =? CT_INVALID); discriminate.
Qed.

Lemma handle_app C ct d c :
  c_app (snd (handle_content C ct d c)) = c_app c ++ delivered (c_state c, ct, d).
Proof.
  pose proof (app_same_stable C) as S. pose proof app_same_pre as P.
  unfold handle_content. rewrite bind_get. cbn [delivered].
  destruct (ct =? CT_APPDATA) eqn:E.
  - apply N.eqb_eq in E. subst ct. rewrite parse_appdata. unfold lift, bind, ret.
    rewrite process_handler. rewrite andb_true_r.
    destruct (established (c_state c)) eqn:Es.
    + destruct (c_state c) eqn:Ec; try discriminate; try (destruct can_recv; [|discriminate]); reflexivity.
    + rewrite app_nil_r. apply (stable_handler C _ S).
      destruct (c_state c); try exact I; try discriminate. destruct can_recv; [discriminate | exact I].
  - apply N.eqb_neq in E. rewrite andb_false_r, app_nil_r.
    unfold bind at 1, lift. destruct (parse_content C _ ct d) as [k|e] eqn:Ek; [|reflexivity].
    apply parse_other in Ek; [|exact E].
    change (app_same c (snd ((match k with
       | KHandshake h => match msg_type h with None => raise XAttr | Some ty => transcribe d (other_side (g_side (c_config c))) ty end
       | _ => ret tt end ;; process C k) c))).
    revert Ek. generalize c at 2. intros c0 Ek. revert c.
    refine (rel_bind _ P _ _ _ _ _ _).
    { reli P. apply (stable_transcribe C _ S). }
    intros _ c. rewrite process_handler. apply (stable_handler C _ S).
    destruct (c_state c); destruct k; try exact I; try contradiction; destruct can_recv; try exact I; contradiction.
Qed.

Lemma fail_app C a c : c_app (snd (fail C a c)) = c_app c.
Proof. apply (stable_fail C _ (app_same_stable C)). Qed.
Lemma read_content_app C c r c1 : read_next_content C c = (r, c1) -> c_app c1 = c_app c.
Proof.
  intro H. pose proof (reading_content C c) as K. rewrite H in K. apply reading_app in K. exact K.
Qed.

Lemma loop_app C : forall n c, (length (c_in c) <= n)%nat ->
  exists l, handles C c l /\
    c_app (snd (receive_loop n C c)) = c_app c ++ concat (map delivered l).
Proof.
  assert (G : forall c, 
    match guarded C (receive_one C) c with
    | (Ok true, c2) => exists ct d c1, read_next_content C c = (Ok (Some (ct, d)), c1) /\
        handle_content C ct d c1 = (Ok tt, c2)
    | (_, c2) => exists l, handles C c l /\ c_app c2 = c_app c ++ concat (map delivered l)
    end).
  { intro c. unfold guarded, receive_one. unfold bind at 1.
    destruct (read_next_content C c) as [[[[ct d]|]|e] c1] eqn:E.
    - unfold bind. pose proof (handle_app C ct d c1) as K.
      destruct (handle_content C ct d c1) as [[[]|e] c2] eqn:E2.
      + cbn. exists ct, d, c1. auto.
      + pose proof (fail_app C (Some match alert_of e with Some code => code | None => INTERNAL_ERROR end) c2) as F.
        assert (exists l, handles C c l /\ c_app c2 = c_app c ++ concat (map delivered l)) as (l & L1 & L2).
        { exists [(c_state c1, ct, d)]. split; [eapply handles_last; eassumption|].
          cbn [snd] in K. rewrite K. apply read_content_app in E. rewrite E.
          cbn [map concat]. rewrite app_nil_r. reflexivity. }
        destruct (fail C _ c2) as [[]  c3]; cbn [snd] in F; exists l; split; auto; congruence.
    - exists []. split; [econstructor; exact E|]. cbn. rewrite app_nil_r. eapply read_content_app; eassumption.
    - pose proof (fail_app C (Some match alert_of e with Some code => code | None => INTERNAL_ERROR end) c1) as F.
      apply read_content_app in E as E'.
      destruct (fail C _ c1) as [[]  c3]; cbn [snd] in F; exists []; (split; [eapply handles_bad; exact E|]);
        cbn; rewrite app_nil_r; congruence. }
  induction n as [|n IH]; intros c Hn; cbn [receive_loop]; unfold bind; specialize (G c);
    destruct (guarded C (receive_one C) c) as [[[|]|] c2] eqn:E; cbn [negb ret raise snd]; try exact G.
  - apply guarded_lt in E. unfold blen in E. lia.
  - apply guarded_lt in E. unfold blen in E.
    destruct (IH c2) as (l & L1 & L2); [lia|].
    destruct G as (ct & d & c1 & G1 & G2).
    exists ((c_state c1, ct, d) :: l). split; [eapply handles_more; eassumption|].
    rewrite L2. pose proof (handle_app C ct d c1) as K. rewrite G2 in K. cbn [snd] in K.
    rewrite K. apply read_content_app in G1. rewrite G1. cbn [map concat]. rewrite app_assoc. reflexivity.
Qed.

Lemma handles_fun C c l : handles C c l -> forall l', handles C c l' -> l = l'.
Proof.
  induction 1; intros l' H'; inversion H'; subst; try congruence.
  f_equal; [congruence|]. apply IHhandles.
  match goal with A : read_next_content C c = (Ok (Some (ct, d)), c1), B : read_next_content C c = (Ok (Some (?x, ?y)), ?z) |- _ =>
    rewrite A in B; injection B; intros; subst end.
  congruence.
Qed.

Lemma receive_data_app C d c : d <> [] -> can_receive (c_state c) = true ->
  exists l, handles C (cset_in (c_in c ++ d) c) l /\
    c_app (snd (receive_data C d c)) = c_app c ++ concat (map delivered l).
Proof.
  intros Hd Hr. unfold receive_data. replace (is_nil d) with false by (destruct d; [congruence|reflexivity]).
  rewrite bind_get, Hr. cbn [negb]. rewrite bind_modify. unfold bind at 1.
  destruct (loop_app C (length (c_in c ++ d)) (cset_in (c_in c ++ d) c)) as (l & L1 & L2); [cbn; lia|].
  exists l. split; [exact L1|]. destruct (receive_loop _ C _) as [[[]|e] c1]; cbn [snd] in *; [|exact L2].
  rewrite bind_get. etransitivity; [|exact L2].
  assert (R : rel app_same (do rk <- (match c_cipher c1 with None => ret false | Some x => lift (should_rekey x) end); if rk then rekey else ret tt)).
  { pose proof app_same_pre as P. reli P. apply (stable_rekey C _ (app_same_stable C)). }
  apply R.
Qed.
Lemma receive_data_refused C d c : d = [] \/ can_receive (c_state c) = false ->
  exists e, receive_data C d c = (Err e, c).
Proof.
  intros H. unfold receive_data. destruct (is_nil d) eqn:E.
  - exists XValue. reflexivity.
  - rewrite bind_get. destruct H as [-> | ->]; [discriminate|]. cbn [negb].
    eexists. reflexivity.
Qed.
Lemma others_app C o c : (forall d, o <> ORecv d) -> o <> ORead -> c_app (after C o c) = c_app c.
Proof.
  intros Ho Ho2. pose proof (app_same_stable C) as S. pose proof app_same_pre as P.
  assert (R : forall m : M unit, rel app_same m -> app_same c (snd ((m ;; ret ([]:bytes)) c))).
  { intros m H. apply (rel_bind _ P _ _ m (fun _ => ret [])); [exact H | intro; apply (rel_ret _ P)]. }
  unfold after, step. destruct o; try congruence; try apply R.
  - apply (stable_initiate_connection C _ S).
  - apply (stable_send_data C _ S).
  - reflexivity.
  - apply (stable_rekey C _ S).
  - apply (stable_close_receiving_end C _ S).
  - apply (stable_close_sending_end C _ S).
Qed.

(* --- failed connections ------------------------------------------------ *)
Definition silent (o a : bytes) (c : conn) : Prop := c_state c = Failed /\ c_out c = o /\ c_app c = a.
Lemma silent_reading o a c c' : reading c c' -> silent o a c -> silent o a c'.
Proof. intros [E _] (A & B & D). rewrite E. repeat split; assumption. Qed.
Lemma failed_send C k c : c_state c = Failed -> send_content C k c = (Err XTLS, c).
Proof.
  intro E. unfold send_content. rewrite bind_get, E. cbn [can_send can_send_app].
  destruct (_ && _); reflexivity.
Qed.
Lemma failed_handle C ct d o a : keeps (silent o a) (handle_content C ct d).
Proof.
  apply of_rel. pose proof (impl_preorder (silent o a)) as P.
  unfold handle_content.
  assert (T : forall x y z, rel (fun c c' => silent o a c -> silent o a c') (transcribe x y z)).
  { intros. unfold transcribe. reli P; [apply rel_on_tr; intros u H; exact H | apply rel_modify; intros u H; exact H]. }
  reli P; try apply T.
  intros x H. rewrite process_handler. pose proof H as H'. destruct H' as (E & _). rewrite E. exact H.
Qed.
Lemma failed_guarded C m o a : keeps (silent o a) m -> keeps (silent o a) (guarded C m).
Proof.
  intros H c Hc. specialize (H c Hc). unfold guarded. destruct (m c) as [[|] c1]; [exact H|].
  cbn [snd] in H. unfold fail. unfold bind. rewrite failed_send by apply H. exact H.
Qed.
Lemma failed_receive_one C o a : keeps (silent o a) (receive_one C).
Proof.
  apply of_rel. pose proof (impl_preorder (silent o a)) as P. unfold receive_one. reli P.
  - intros c. apply silent_reading. apply reading_content.
  - apply to_rel. apply failed_handle.
Qed.
Lemma failed_loop C n o a : keeps (silent o a) (receive_loop n C).
Proof.
  apply of_rel. pose proof (impl_preorder (silent o a)) as P.
  induction n; cbn [receive_loop]; reli P; try (apply to_rel; apply failed_guarded, failed_receive_one); apply IHn.
Qed.
Lemma failed_receive C d o a : keeps (silent o a) (receive_data C d).
Proof.
  apply of_rel. pose proof (impl_preorder (silent o a)) as P. unfold receive_data, rekey. reli P.
  - apply rel_modify. intros x H; exact H.
  - apply to_rel, failed_loop.
Qed.
Lemma failed_step C o c : c_state c = Failed -> o <> OCloseR ->
  c_state (after C o c) = Failed /\
  (c_out (after C o c) = c_out c \/ o = OFlush /\ c_out (after C o c) = []) /\
  (c_app (after C o c) = c_app c \/ o = ORead /\ c_app (after C o c) = []).
Proof.
  intros E Ho. unfold after, step. destruct o; try congruence.
  - unfold bind, initiate_connection. rewrite bind_get, E. cbn. auto.
  - pose proof (failed_receive C d (c_out c) (c_app c) c) as H.
    assert (silent (c_out c) (c_app c) c) as S by (repeat split; assumption).
    specialize (H S). destruct H as (H1 & H2 & H3).
    unfold bind. destruct (receive_data C d c) as [[|] c1]; cbn [snd ret] in *; auto.
  - unfold bind, send_data. rewrite failed_send by exact E. auto.
  - cbn. auto.
  - cbn. auto.
  - unfold bind, rekey. rewrite bind_get, E. cbn. auto.
  - unfold bind, close_sending_end. rewrite !bind_get, E. cbn. rewrite E. cbn. auto.
Qed.
Lemma failed_run C ops : forall c, c_state c = Failed -> no_close_r ops ->
  c_state (run C ops c) = Failed /\ emits C ops c [] /\ delivers C ops c [].
Proof.
  induction ops as [|o ops IH]; intros c E H.
  - repeat split; [exact E | constructor | constructor].
  - unfold no_close_r in H. cbn [forallb] in H. apply andb_true_iff in H. destruct H as [Ho H].
    assert (Ho' : o <> OCloseR) by (intro; subst; discriminate).
    destruct (failed_step C o c E Ho') as (S1 & S2 & S3).
    destruct (IH (after C o c) S1 H) as (I1 & I2 & I3).
    split; [exact I1|]. split.
    + destruct (op_eq_flush o) as [->|N]; [constructor; exact I2|].
      change (@nil byte) with ((@nil byte) ++ []). constructor; [exact N | | exact I2].
      rewrite app_nil_r. destruct S2 as [S2|[? _]]; [exact S2 | contradiction].
    + destruct (op_eq_read o) as [->|N]; [constructor; exact I3|].
      change (@nil byte) with ((@nil byte) ++ []). constructor; [exact N | | exact I3].
      rewrite app_nil_r. destruct S3 as [S3|[? _]]; [exact S3 | contradiction].
Qed.

(* --- closed receiving end ---------------------------------------------- *)
Definition deaf (s : state) : Prop := match s with Closed false _ => True | _ => False end.
Lemma deaf_send C k c : deaf (c_state c) -> c_state (snd (send_content C k c)) = c_state c.
Proof.
  intros _. pose proof (sending_content C k c) as (E & _). rewrite E. reflexivity.
Qed.
Lemma send_state C k c : c_state (snd (send_content C k c)) = c_state c.
Proof. pose proof (sending_content C k c) as (E & _). rewrite E. reflexivity. Qed.
Lemma deaf_step C o c : deaf (c_state c) -> deaf (c_state (after C o c)).
Proof.
  intro H. unfold after, step. destruct o.
  - unfold bind, initiate_connection. rewrite bind_get. destruct (c_state c) eqn:E; try contradiction. cbn. rewrite E. exact H.
  - destruct (receive_data_refused C d c) as [e He].
    { right. destruct (c_state c); try contradiction. destruct can_recv; [contradiction|reflexivity]. }
    unfold bind. rewrite He. exact H.
  - unfold bind, send_data. pose proof (send_state C (KAppData d) c) as K.
    destruct (send_content C _ c) as [[|] c1]; cbn [snd ret] in *; rewrite K; exact H.
  - exact H.
  - exact H.
  - unfold bind, rekey. rewrite bind_get. destruct (negb _); exact H.
  - unfold bind, close_receiving_end. rewrite bind_get. unfold is_post_handshake.
    destruct (c_state c); try contradiction. cbn. exact I.
  - unfold bind, close_sending_end. rewrite bind_get.
    destruct (c_state c) eqn:E; try contradiction. rewrite bind_ret, bind_get, E. cbn [can_send].
    destruct can_snd; [|cbn; rewrite E; exact H].
    unfold bind at 1. pose proof (send_state C (KAlert WARNING CLOSE_NOTIFY) c) as K.
    destruct (send_content C _ c) as [[|] c1]; cbn [snd] in *.
    + cbn. rewrite K, E. cbn. exact H.
    + rewrite K, E. exact H.
Qed.
Lemma deaf_run C ops : forall c, deaf (c_state c) -> deaf (c_state (run C ops c)).
Proof.
  induction ops as [|o ops IH]; intros c H; cbn [run]; [exact H|]. apply IH, deaf_step, H.
Qed.
Lemma deaf_receive C d c : deaf (c_state c) -> exists e, receive_data C d c = (Err e, c).
Proof.
  intro H. apply receive_data_refused. right.
  destruct (c_state c); try contradiction. destruct can_recv; [contradiction | reflexivity].
Qed.
Lemma close_r_deaf C c : is_post_handshake c = true -> deaf (c_state (after C OCloseR c)).
Proof.
  intro H. unfold after, step, bind, close_receiving_end. rewrite bind_get, H. cbn [negb].
  destruct (c_state c); exact I.
Qed.
Lemma close_r_fails C c : is_post_handshake c = false ->
  after C OCloseR c = cset_state Failed c.
Proof.
  intro H. unfold after, step, bind, close_receiving_end. rewrite bind_get, H. reflexivity.
Qed.
Definition gone (s : state) : Prop := match s with Failed | Closed false _ => True | _ => False end.
Lemma gone_step C o c : gone (c_state c) -> gone (c_state (after C o c)).
Proof.
  intro H. destruct (c_state c) eqn:E; try contradiction.
  - assert (D : deaf (c_state c)) by (rewrite E; exact H). apply (deaf_step C o) in D.
    destruct (c_state (after C o c)); try contradiction; exact D.
  - assert (o = OCloseR \/ o <> OCloseR) as [->|N] by (destruct o; auto; right; discriminate).
    + assert (D : deaf (c_state (after C OCloseR c))).
      { apply close_r_deaf. unfold is_post_handshake. rewrite E. reflexivity. }
      destruct (c_state (after C OCloseR c)); try contradiction; exact D.
    + destruct (failed_step C o c E N) as (S & _). rewrite S. exact I.
Qed.
Lemma gone_run C ops : forall c, gone (c_state c) -> gone (c_state (run C ops c)).
Proof.
  induction ops as [|o ops IH]; intros c H; cbn [run]; [exact H|]. apply IH, gone_step, H.
Qed.
Lemma gone_not_connected c : gone (c_state c) -> is_connected c = false.
Proof.
  unfold is_connected. destruct (c_state c); try contradiction; cbn; auto. destruct can_recv; [contradiction | reflexivity].
Qed.
