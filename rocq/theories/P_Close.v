(* Closing the sending end. *)
From Verif Require Import Base P_Base Iana Crypto Config Serial Ext Msg Hkdf Cipher Kex Sig Ocsp Transcript Conn S_Hist S_Conn S_Close P_Monad P_Frame P_Rec P_Buf P_Wp.

Definition muted (o : bytes) (c : conn) : Prop := (exists r, c_state c = Closed r false) /\ c_out c = o.
Lemma muted_send C k o c : muted o c -> send_content C k c = (Err XTLS, c).
Proof.
  intros [[r S] _]. unfold send_content. rewrite bind_get, S. cbn [can_send_app can_send negb].
  destruct (_ && _); reflexivity.
Qed.
Lemma muted_fail C code o c : muted o c -> fail C (Some code) c = (Err XTLS, c).
Proof. intro H. unfold fail, bind. rewrite (muted_send C _ o c H). reflexivity. Qed.
Lemma parse_close C p d l : parse_content C p CT_ALERT d = Ok (KAlert l CLOSE_NOTIFY) -> exists lv, d = [lv; x00].
Proof.
  destruct d as [|a [|b d]]; [discriminate| |].
  - destruct a; discriminate.
  - destruct d as [|z d].
    + intro H. exists a. do 2 f_equal.
      assert (E : exists n s1, read_enum 1 [WARNING; FATAL] ILLEGAL_PARAMETER (stream_of [a; b]) = Ok (n, s1) /\ KAlert n (bN b) = KAlert l CLOSE_NOTIFY).
      { destruct a; try discriminate H; (eexists; eexists; split; [reflexivity|]); destruct b; try discriminate H; exact (f_equal (fun r => match r with Ok v => v | _ => KCcs end) H). }
      destruct E as (n & s1 & _ & E). injection E; intros E1 _. destruct b; try discriminate E1. reflexivity.
    + intro H. exfalso. revert H. unfold parse_content. cbv zeta. change (CT_ALERT =? CT_CCS) with false. change (CT_ALERT =? CT_ALERT) with true. cbv iota.
      unfold parse_alert. set (s := stream_of (a :: b :: z :: d)).
      assert (R : read_int 1 s = Ok (bN a, mkStream (a :: b :: z :: d) 1 [])) by reflexivity.
      unfold read_enum. rewrite R. cbn [rbind]. destruct (memN _ _); [|discriminate]. cbn [rbind].
      assert (R2 : read_int 1 (mkStream (a :: b :: z :: d) 1 []) = Ok (bN b, mkStream (a :: b :: z :: d) 2 [])) by reflexivity.
      rewrite R2. cbn [rbind].
      assert (Z : assert_eof (mkStream (a :: b :: z :: d) 2 []) = Err XTooMuch).
      { unfold assert_eof. cbn [s_pos s_data]. assert (2 =? blen (a :: b :: z :: d) = false) as -> by (apply N.eqb_neq; rewrite !blen_cons; lia). reflexivity. }
      rewrite Z. discriminate.
Qed.
Lemma parse_alert_type C p ct d l k : parse_content C p ct d = Ok (KAlert l k) -> ct = CT_ALERT.
Proof.
  unfold parse_content. cbv zeta. destruct (ct =? CT_CCS) eqn:E1.
  { unfold parse_ccs. intro H. exfalso. revert H.
    destruct (read_exactly 1 (stream_of d)) as [[v s1]|e]; cbn [rbind]; [|destruct (is_buffer_error e); discriminate].
    destruct (beqb v _); cbn [rbind]; [|discriminate]. destruct (assert_eof s1) as [|e]; cbn [rbind]; [discriminate|]. destruct (is_buffer_error e); discriminate. }
  destruct (ct =? CT_ALERT) eqn:E2; [intros _; apply N.eqb_eq; exact E2|].
  destruct (ct =? CT_HANDSHAKE).
  { intro H. exfalso. revert H. destruct (parse_hs C p _) as [[h s1]|e]; cbn [rbind]; [|destruct (is_buffer_error e); discriminate].
    destruct (assert_eof s1) as [|e]; cbn [rbind]; [discriminate|]. destruct (is_buffer_error e); discriminate. }
  destruct (ct =? CT_APPDATA).
  { intro H. exfalso. revert H. destruct (read_all _) as [b s1]. cbn [rbind].
    destruct (assert_eof s1) as [|e]; cbn [rbind]; [discriminate|]. destruct (is_buffer_error e); discriminate. }
  destruct (ct =? CT_HEARTBEAT).
  { intro H. exfalso. revert H. unfold parse_heartbeat.
    destruct (read_enum _ _ _ _) as [[v s1]|e]; cbn [rbind]; [|destruct (is_buffer_error e); discriminate].
    destruct (read_var _ _) as [[q s2]|e]; cbn [rbind]; [|destruct (is_buffer_error e); discriminate].
    destruct (read_all _) as [b s3]. destruct (_ <? _); cbn [rbind]; [discriminate|]. destruct (_ <? _); cbn [rbind]; [discriminate|].
    destruct (assert_eof s3) as [|e]; cbn [rbind]; [discriminate|]. destruct (is_buffer_error e); discriminate. }
  destruct (ct =? CT_INVALID); discriminate.
Qed.
Lemma muted_handle C ct d o c : muted o c -> ~ close_notify (c_state c, ct, d) -> muted o (snd (handle_content C ct d c)).
Proof.
  intros [[r S] O] N. unfold handle_content. rewrite bind_get. unfold bind at 1, lift.
  destruct (parse_content C _ ct d) as [k|e] eqn:P; [|split; [exists r; exact S | exact O]].
  assert (T : forall sd ty, c_state (snd (transcribe d sd ty c)) = c_state c /\ c_out (snd (transcribe d sd ty c)) = c_out c).
  { intros sd ty. unfold transcribe, bind, on_tr, modify. destruct (tr_update _ _ _ _) as [[]?]; split; reflexivity. }
  assert (B : forall c1, muted o c1 -> muted o (snd (process C k c1))).
  { intros c1 [[r1 S1] O1]. unfold process. rewrite bind_get, S1. destruct r1; [|split; [exists false; exact S1 | exact O1]].
    assert (M : muted o c1) by (split; [exists true; exact S1 | exact O1]).
    destruct k; try (exact M).
    cbn [base_process]. destruct (desc =? CLOSE_NOTIFY) eqn:E.
    - exfalso. apply N. apply N.eqb_eq in E. subst desc. 
      assert (ct = CT_ALERT) as ->; [|split; [reflexivity | eapply parse_close; exact P]].
      eapply parse_alert_type. exact P.
    - destruct (level =? WARNING); [destruct (memN _ _); exact M|]. destruct (_ && _); exact M. }
  unfold bind. destruct k; try (apply B; split; [exists r; exact S | exact O]).
  destruct (msg_type h) as [ty|]; [|split; [exists r; exact S | exact O]].
  destruct (T (other_side (g_side (c_config c))) ty) as [T1 T2].
  destruct (transcribe d _ ty c) as [[[]|e] c1]; cbn [snd] in *.
  - apply B. split; [exists r; congruence | congruence].
  - split; [exists r; congruence | congruence].
Qed.
Lemma muted_reading o c c' : reading c c' -> muted o c -> muted o c'.
Proof. intros [E _] [[r S] O]. rewrite E. split; [exists r; exact S | exact O]. Qed.
Lemma muted_loops C : forall c x, loops C c x -> forall o, muted o c -> (forall l, handles C c l -> ~ Exists close_notify l) -> muted o (snd x).
Proof.
  assert (F : forall e o c2, muted o c2 -> muted o (snd (match fail C (Some match alert_of e with Some code => code | None => INTERNAL_ERROR end) c2 with
             | (Ok _, c2) => (Err e : res bool, c2)
             | (Err e2, c2) => (Err e2, c2)
             end))).
  { intros e o c2 M. rewrite (muted_fail C _ o c2 M). exact M. }
  assert (G : forall c o, muted o c -> (forall l, handles C c l -> ~ Exists close_notify l) ->
     muted o (snd (guarded C (receive_one C) c)) /\
     forall c2, guarded C (receive_one C) c = (Ok true, c2) -> exists h, forall l, handles C c2 l -> handles C c (h :: l)).
  { intros c o M N. unfold guarded, receive_one. unfold bind at 1 3.
    pose proof (reading_content C c) as R. destruct (read_next_content C c) as [[[[ct d]|]|e] c1] eqn:E; cbn [snd] in R;
      pose proof (muted_reading o c c1 R M) as M1.
    - assert (Nc : ~ close_notify (c_state c1, ct, d)).
      { intro K. destruct (handle_content C ct d c1) as [[[]|e] c2] eqn:H.
        - destruct (loop_app C (length (c_in c2)) c2) as (l & L & _); [lia|].
          apply (N ((c_state c1, ct, d) :: l)); [eapply handles_more; eassumption | left; exact K].
        - apply (N [(c_state c1, ct, d)]); [eapply handles_last; eassumption | left; exact K]. }
      pose proof (muted_handle C ct d o c1 M1 Nc) as M2. unfold bind.
      destruct (handle_content C ct d c1) as [[[]|e] c2] eqn:H; cbn [snd ret] in *.
      + split; [exact M2|]. intros c3 Hc. injection Hc; intros <-. eexists. intros l L. eapply handles_more; eassumption.
      + split; [apply F; exact M2|]. intros c3 Hc. destruct (fail C _ c2) as [[?|?] ?]; discriminate.
    - split; [exact M1|]. intros c2 Hc. discriminate.
    - split; [apply F; exact M1|]. intros c2 Hc. destruct (fail C _ c1) as [[?|?] ?]; discriminate. }
  intros c x H. induction H as [c c1 H|c e c1 H|c c1 x H _ IH]; intros o M N; destruct (G c o M N) as [G1 G2]; rewrite H in G1; try exact G1.
  apply IH; [exact G1|]. intros l L X. destruct (G2 c1 H) as [h K]. apply (N (h :: l)); [apply K; exact L | right; exact X].
Qed.
Lemma muted_step C op o c : op <> OFlush -> muted o c ->
  (forall d, op = ORecv d -> forall l, handles C (cset_in (c_in c ++ d) c) l -> ~ Exists close_notify l) ->
  muted o (after C op c).
Proof.
  intros Nf M N. destruct op; unfold after, step; try (rewrite snd_bind_ret).
  - unfold initiate_connection. rewrite bind_get. destruct M as [[r S] O]. rewrite S. split; [exists r; exact S | exact O].
  - destruct d as [|b d]; [exact M|]. destruct (can_receive (c_state c)) eqn:Cr.
    + destruct (receive_data_loops C (b :: d) c) as (x & L & X & _); [discriminate | exact Cr|]. rewrite X.
      apply (muted_loops C _ x L); [|apply (N _ eq_refl)].
      destruct M as [[r S] O]. split; [exists r; exact S | exact O].
    + destruct (receive_data_refused C (b :: d) c) as (e & ->); [right; exact Cr | exact M].
  - unfold send_data. rewrite (muted_send C _ o c M). exact M.
  - exact M.
  - congruence.
  - unfold rekey. rewrite bind_get. destruct (negb _); exact M.
  - unfold close_receiving_end. rewrite bind_get. destruct M as [[r S] O]. unfold is_post_handshake. rewrite S. cbn [negb].
    split; [exists false; reflexivity | exact O].
  - unfold close_sending_end. rewrite bind_get. destruct M as [[r S] O]. rewrite S. unfold bind at 1, ret at 1. rewrite bind_get, S. cbn [can_send].
    split; [exists r; exact S | exact O].
Qed.
Lemma muted_run C ops : forall c, (exists r, c_state c = Closed r false) -> no_close_notify C ops c -> emits C ops c [].
Proof.
  induction ops as [|op ops IH]; intros c S N; [constructor|]. destruct N as [N1 N2].
  destruct (op_eq_flush op) as [->|Nf].
  - apply emits_flush. apply IH; [exact S | exact N2].
  - assert (M : muted (c_out c) (after C op c)).
    { apply muted_step; [exact Nf | split; [exact S | reflexivity]|]. intros d ->. exact N1. }
    destruct M as [S' O]. change (@nil byte) with (@nil byte ++ []). apply emits_cons; [exact Nf | rewrite O, app_nil_r; reflexivity|].
    apply IH; assumption.
Qed.
Lemma close_sending_closed C c c' : close_sending_end C c = (Ok tt, c') -> c_state c <> Failed -> exists r, c_state c' = Closed r false.
Proof.
  unfold close_sending_end. rewrite bind_get. intros H N.
  set (m := match c_state c with Closed _ _ | Failed => ret tt | _ => set_state (Closed true true) end) in H.
  assert (M : exists c1 r w, m c = (Ok tt, c1) /\ c_state c1 = Closed r w).
  { unfold m. destruct (c_state c) as [] eqn:S; try (eexists; eexists; eexists; split; [reflexivity|]; first [exact S | reflexivity]). congruence. }
  destruct M as (c1 & r & w & M & S). unfold bind at 1 in H. rewrite M in H. rewrite bind_get, S in H. cbn [can_send] in H.
  destruct w; [|injection H; intros <-; exists r; exact S].
  unfold bind, modify in H. pose proof (send_state C (KAlert WARNING CLOSE_NOTIFY) c1) as Es.
  destruct (send_content C _ c1) as [[?|?] c2]; [|discriminate]. cbn [snd] in Es. rewrite S in Es. rewrite Es in H.
  injection H; intros <-. exists r. reflexivity.
Qed.
Lemma closed_silent C c c' ops : close_sending_end C c = (Ok tt, c') -> c_state c <> Failed ->
  no_close_notify C ops c' -> emits C ops c' [].
Proof. intros H N. apply muted_run. eapply close_sending_closed; eassumption. Qed.
Lemma close_fst C c : fst (close_sending_end C c) = Ok tt -> close_sending_end C c = (Ok tt, snd (close_sending_end C c)).
Proof. destruct (close_sending_end C c). cbn. intros ->. reflexivity. Qed.
Lemma send_refused C d c : fst (send_data C d c) <> Ok tt -> forall u c1, send_data C d c <> (Ok u, c1).
Proof. intros H [] c1 E. apply H. rewrite E. reflexivity. Qed.
Lemma emits_grow C o1 o2 c : o1 <> OFlush -> o2 <> OFlush ->
  blen (c_out (after C o2 (after C o1 c))) <> blen (c_out c) -> ~ emits C [o1; o2] c [].
Proof.
  intros N1 N2 L H. apply L. inversion H; subst; [contradiction|].
  match goal with X : _ ++ _ = [] |- _ => apply app_eq_nil in X; destruct X; subst end.
  match goal with X : emits C [o2] _ _ |- _ => inversion X; subst; [contradiction|] end.
  match goal with X : _ ++ _ = [] |- _ => apply app_eq_nil in X; destruct X; subst end.
  f_equal. match goal with A : c_out (after C o2 _) = _, B : c_out (after C o1 _) = _ |- _ => rewrite A, B, !app_nil_r; reflexivity end.
Qed.
(* what is handled when one content is read and nothing is left *)
Lemma handles_one C c ct d c1 : read_next_content C c = (Ok (Some (ct, d)), c1) -> ct <> CT_ALERT ->
  (forall u c2, handle_content C ct d c1 = (Ok u, c2) -> fst (read_next_content C c2) = Ok None) ->
  forall l, handles C c l -> ~ Exists close_notify l.
Proof.
  intros R A N l H. inversion H; subst; intro X; try (inversion X; fail).
  - match goal with Y : read_next_content C c = (Ok (Some _), _) |- _ => rewrite R in Y; injection Y; intros; subst end.
    inversion X as [? ? K|? ? K]; subst; [destruct K as [K _]; contradiction | inversion K].
  - match goal with Y : read_next_content C c = (Ok (Some _), _) |- _ => rewrite R in Y; injection Y; intros; subst end.
    match goal with Y : handle_content C _ _ _ = (Ok tt, _), Z : handles C ?c2 ?l2 |- _ => specialize (N _ _ Y); inversion Z; subst end;
      try match goal with Y : read_next_content C ?c3 = _, Z : fst (read_next_content C ?c3) = _ |- _ => rewrite Y in Z; discriminate Z end.
    inversion X as [? ? K|? ? K]; subst; [destruct K as [K _]; contradiction | inversion K].
Qed.
Lemma handles_one_fst C c ct d : fst (read_next_content C c) = Ok (Some (ct, d)) -> ct <> CT_ALERT ->
  fst (read_next_content C (snd (handle_content C ct d (snd (read_next_content C c))))) = Ok None ->
  forall l, handles C c l -> ~ Exists close_notify l.
Proof.
  destruct (read_next_content C c) as [r c1] eqn:R. cbn [fst snd]. intros -> A N.
  apply (handles_one C c ct d c1 R A). intros u c2 H. rewrite H in N. exact N.
Qed.
