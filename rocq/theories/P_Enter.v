(* How a handshake over a socket may end. *)
From Verif Require Import Base P_Base Iana Crypto Config Serial Ext Msg Hkdf Cipher Kex Sig Ocsp Transcript Conn Wrapper
  S_Hist S_Conn S_Close S_Enter P_Monad P_Frame P_Rec P_Buf P_Close P_Hist P_Wrap.

Definition calm (s : state) : bool := match s with Closed _ _ | Failed => false | _ => true end.
Definition calmR (c c' : conn) : Prop := calm (c_state c) = true -> calm (c_state c') = true.
Lemma calmR_pre : preorder calmR.
Proof. split; unfold calmR; auto. Qed.
Lemma calm_same c c' : c_state c' = c_state c -> calmR c c'.
Proof. unfold calmR. intros ->. auto. Qed.
Lemma calm_send C k : rel calmR (send_content C k).
Proof. intro c. apply calm_same. pose proof (sending_content C k c) as [S _]. rewrite S. reflexivity. Qed.
Lemma calm_state s : calm s = true -> rel calmR (set_state s).
Proof. intro E. apply rel_set_state. intros c _. exact E. Qed.
Lemma calm_tr A (f : transcript -> res A * transcript) : rel calmR (on_tr f).
Proof. apply rel_on_tr. intros; apply calm_same; reflexivity. Qed.
Lemma calm_cipher A (f : cs -> res A * cs) : rel calmR (on_cipher f).
Proof. apply (rel_on_cipher _ calmR_pre). intros; apply calm_same; reflexivity. Qed.
Lemma calm_nc f : rel calmR (upd_nc f).
Proof. apply (rel_upd_nc _ calmR_pre). intros; apply calm_same; reflexivity. Qed.
Lemma calm_draw : rel calmR draw.
Proof. intro c. unfold draw. rewrite bind_get. unfold bind, modify, ret. cbn [snd]. apply calm_same. reflexivity. Qed.
Lemma calm_transcribe d sd ty : rel calmR (transcribe d sd ty).
Proof. pose proof calmR_pre as P. unfold transcribe. reli P; [apply calm_tr | apply rel_modify; intros; apply calm_same; reflexivity]. Qed.
Ltac cstep := repeat first
  [ apply calm_tr | apply calm_cipher | apply calm_draw | apply calm_send | apply calm_nc | apply calm_transcribe
  | solve [apply calm_state; reflexivity] | solve [apply rel_modify; intros; apply calm_same; reflexivity] ].
Ltac call := let P := fresh in pose proof calmR_pre as P; unfold ask_cipher, tr_method, set_cipher; cbv zeta; reli P; cstep.
Definition ends (k : content) : bool := match k with KAlert _ d => d =? CLOSE_NOTIFY | _ => false end.
Lemma calm_base k : ends k = false -> rel calmR (base_process k).
Proof. intro E. destruct k; cbn [ends base_process] in *; [call| |call..]. rewrite E. call. Qed.
Lemma calm_initiate C : rel calmR (initiate_connection C).
Proof. unfold initiate_connection, client_initiate. call. Qed.
Lemma calm_process C k : ends k = false -> rel calmR (process C k).
Proof.
  intro E. pose proof (calm_base k E) as B. unfold process.
  assert (Ct : forall m, rel calmR (process_wait_certificate C m k)).
  { intro m. unfold process_wait_certificate. destruct k as [| |[]| |]; try exact B. call. }
  apply rel_get'. intro c. destruct (c_state c).
  - exact B.
  - unfold process_wait_sh. destruct k as [| |[]| |]; try exact B; try (destruct first; [exact B | apply (rel_raise _ calmR_pre)]).
    unfold client_process_sh, client_process_hrr, client_negociate_hello. call; apply calm_initiate.
  - unfold process_wait_ee. destruct k as [| |[]| |]; try exact B.
    unfold client_neg_mfl, client_neg_alpn, client_neg_heartbeat, client_neg_cct, client_neg_sct. call.
  - unfold process_wait_cert_cr. destruct k as [| |[]| |]; try exact B; call; apply Ct.
  - apply Ct.
  - unfold process_wait_cv. destruct k as [| |[]| |]; try exact B. call.
  - unfold process_client_finished. destruct k as [| |[]| |]; try exact B. call.
  - exact B.
  - unfold process_wait_ch. destruct k as [| |[]| |]; try exact B.
    unfold server_setup, server_negociate, server_neg_versions, server_neg_groups, server_neg_sigalgs,
    server_neg_key_share, server_neg_cct, server_neg_sct, server_neg_alpn, server_neg_mfl,
    server_neg_heartbeat, server_neg_status, server_send_hrr, server_send_hello, server_send_certificate. call.
  - unfold process_server_finished. destruct k as [| |[]| |]; try exact B. call.
  - destruct k; try exact B; call.
  - destruct can_recv; [|apply (rel_raise _ calmR_pre)]. destruct k; try exact B; call.
  - apply (rel_ret _ calmR_pre).
Qed.
Lemma calm_handle C ct d c : ~ close_notify (c_state c, ct, d) -> calmR c (snd (handle_content C ct d c)).
Proof.
  intro N. unfold handle_content. rewrite bind_get. unfold bind at 1, lift.
  destruct (parse_content C _ ct d) as [k|e] eqn:P; [|apply calmR_pre].
  assert (E : ends k = false).
  { destruct k; try reflexivity. cbn [ends]. destruct (desc =? CLOSE_NOTIFY) eqn:E; [|reflexivity]. exfalso. apply N. apply N.eqb_eq in E. subst desc.
    assert (ct = CT_ALERT) as -> by (eapply parse_alert_type; exact P). split; [reflexivity | eapply parse_close; exact P]. }
  pose proof (calm_process C k E) as K. 
  match goal with |- calmR c (snd (?m c)) => cut (rel calmR m); [intro H; apply H|] end.
  call. exact K.
Qed.

(* --- the receiving calls ---------------------------------------------------- *)
Lemma calm_loops C c x : loops C c x -> (forall l, handles C c l -> ~ Exists close_notify l) -> fst x = Ok tt -> calmR c (snd x).
Proof.
  assert (G : forall c b c2, (forall l, handles C c l -> ~ Exists close_notify l) -> guarded C (receive_one C) c = (Ok b, c2) ->
     calmR c c2 /\ (b = true -> exists h, forall l, handles C c2 l -> handles C c (h :: l))).
  { clear c x. intros c b c2 N H. unfold guarded in H. destruct (receive_one C c) as [[b1|e] c3] eqn:E1.
    2:{ destruct (fail C _ c3) as [[]]; discriminate H. }
    injection H; intros <- <-. unfold receive_one, bind at 1 in E1. pose proof (reading_content C c) as R.
    destruct (read_next_content C c) as [[[[ct d]|]|e] c1] eqn:E; [| |discriminate E1]; cbn [snd] in R.
    - assert (Nc : ~ close_notify (c_state c1, ct, d)).
      { intro K. destruct (handle_content C ct d c1) as [[[]|e] c4] eqn:Hh.
        - destruct (loop_app C (length (c_in c4)) c4) as (l & L & _); [lia|].
          apply (N ((c_state c1, ct, d) :: l)); [eapply handles_more; eassumption | left; exact K].
        - apply (N [(c_state c1, ct, d)]); [eapply handles_last; eassumption | left; exact K]. }
      pose proof (calm_handle C ct d c1 Nc) as K. unfold bind in E1. destruct (handle_content C ct d c1) as [[[]|e] c4] eqn:Hh; [|discriminate E1].
      injection E1; intros <- <-. cbn [snd] in K. split.
      + intro Hc. apply K. rewrite (reading_state _ _ R). exact Hc.
      + intros _. eexists. intros l L. eapply handles_more; eassumption.
    - injection E1; intros <- <-. split; [apply calm_same; apply (reading_state _ _ R) | discriminate]. }
  induction 1 as [c c1 H|c e c1 H|c c1 x H _ IH]; intros N E; [| discriminate E |].
  - apply (G c false c1 N H).
  - destruct (G c true c1 N H) as [G1 G2]. destruct (G2 eq_refl) as [h Hh]. intro Hc. apply IH; [|exact E | apply G1; exact Hc].
    intros l L K. apply (N (h :: l)); [apply Hh; exact L | right; exact K].
Qed.
Lemma calm_receive C d c c' : receive_data C d c = (Ok tt, c') -> (forall l, handles C (cset_in (c_in c ++ d) c) l -> ~ Exists close_notify l) -> calmR c c'.
Proof.
  intros H N Hc. destruct d as [|b d]; [discriminate H|].
  assert (Cr : can_receive (c_state c) = true) by (destruct (c_state c); (reflexivity || discriminate Hc)).
  destruct (receive_data_loops C (b :: d) c) as ([[[]|e] c1] & L & X1 & X2); [discriminate | exact Cr | |].
  - rewrite H in X1. cbn [snd] in X1. subst c1. exact (calm_loops C _ _ L N eq_refl Hc).
  - specialize (X2 e eq_refl). rewrite H in X2. discriminate X2.
Qed.
Lemma turn_run C b p c k c' k' : turn C (b :: p) (c, k) = (Ok tt, (c', k')) ->
  c' = run C (calls (b :: p)) c /\ sk_recv k' = sk_recv k /\ exists c1, receive_data C (b :: p) c = (Ok tt, c1) /\ c_state c' = c_state c1.
Proof.
  unfold turn, wfinally, on_conn. cbn [fst snd calls]. destruct (receive_data C (b :: p) c) as [r c1] eqn:E. intro H.
  assert (c' = cset_out [] c1 /\ r = Ok tt /\ sk_recv k' = sk_recv k) as (-> & -> & Ek).
  { unfold flush, wbind, on_conn, data_to_send, bind, get, modify, ret, sock_send, wret in H. cbn [fst snd] in H.
    destruct (c_out c1); cbn [is_nil fst snd] in H; [|destruct (sk_accept k)]; injection H; intros <- <- ->; repeat split. }
  split; [|split; [exact Ek | exists c1; split; reflexivity]].
  cbn [run]. unfold after, step. unfold bind at 1. rewrite E. reflexivity.
Qed.
Lemma loop_ends C n : forall c k c' k', handshake_loop n C (c, k) = (Ok tt, (c', k')) -> calm (c_state c) = true ->
  exists ds, sk_recv k = map Ok ds ++ sk_recv k' /\ c' = run C (flat_map calls ds) c /\ is_post_handshake c' = true /\
    (no_close_notify C (flat_map calls ds) c -> (~ In [] ds /\ c_state c' = Connected) \/ (In [] ds /\ c_state c' = Failed)).
Proof.
  induction n as [|n IH]; intros c k c' k' H Hc; cbn [handshake_loop fst] in H; destruct (is_post_handshake c) eqn:Ep.
  1,3: injection H; intros <- <-; exists []; (split; [reflexivity|]); (split; [reflexivity|]); (split; [exact Ep|]); intros _; left; (split; [intros []|]);
    unfold is_post_handshake in Ep; destruct (c_state c); (reflexivity || discriminate).
  - discriminate H.
  - unfold wbind at 1, sock_recv in H. cbn [snd fst] in H. destruct (sk_recv k) as [|[p|e] l] eqn:Ek; try discriminate H.
    destruct p as [|b p]; cbn [is_nil] in H.
    + unfold wbind, on_conn in H. cbn [fst snd] in H.
      assert (Ec : close_receiving_end C c = (Ok tt, cset_state Failed c)).
      { unfold close_receiving_end. rewrite bind_get, Ep. reflexivity. }
      rewrite Ec in H.
      assert (Ef : handshake_loop n C (cset_state Failed c, mkSock l (sk_accept k) (sk_sent k)) = (Ok tt, (cset_state Failed c, mkSock l (sk_accept k) (sk_sent k)))) by (destruct n; reflexivity).
      rewrite Ef in H. injection H; intros <- <-. exists [[]]. split; [reflexivity|]. split.
      { cbn [flat_map calls app run]. unfold after, step. unfold bind. rewrite Ec. reflexivity. }
      split; [reflexivity|]. intros _. right. split; [left; reflexivity | reflexivity].
    + unfold wbind at 1 in H. destruct (turn C (b :: p) (c, mkSock l (sk_accept k) (sk_sent k))) as [[[]|e] [c1 k1]] eqn:Et; [|discriminate H].
      destruct (turn_run _ _ _ _ _ _ _ Et) as (E1 & E2 & c2 & E3 & E4). cbn [sk_recv] in E2.
      destruct (calm (c_state c1)) eqn:Hc1.
      * apply IH in H; [|exact Hc1]. destruct H as (ds & X1 & X2 & X3 & X4). exists ((b :: p) :: ds).
        split; [rewrite <- E2, X1; reflexivity|]. 
        assert (Er : forall x, run C (flat_map calls ((b :: p) :: ds)) x = run C (flat_map calls ds) (run C (calls (b :: p)) x)) by reflexivity.
        split; [rewrite Er, <- E1; exact X2|]. split; [exact X3|]. intro N.
        assert (N1 : no_close_notify C (flat_map calls ds) c1) by (rewrite E1; apply N).
        destruct (X4 N1) as [[A B]|[A B]]; [left; split; [intros [?|?]; [discriminate | contradiction] | exact B] | right; split; [right; exact A | exact B]].
      * assert (Es : handshake_loop n C (c1, k1) = (Ok tt, (c1, k1))).
        { assert (P1 : is_post_handshake c1 = true) by (unfold is_post_handshake; destruct (c_state c1); (reflexivity || discriminate Hc1)).
          destruct n; cbn [handshake_loop fst]; rewrite P1; reflexivity. }
        rewrite Es in H. injection H; intros <- <-. exists [b :: p]. split; [rewrite E2; reflexivity|]. split; [exact E1|].
        split; [unfold is_post_handshake; destruct (c_state c1); (reflexivity || discriminate Hc1)|]. intro N. exfalso.
        assert (K : calm (c_state c2) = true) by (apply (calm_receive C (b :: p) c c2 E3); [apply N | exact Hc]).
        rewrite E4 in Hc1. congruence.
Qed.
Lemma enter_ends C g c k c' k' : created g c -> do_handshake C (c, k) = (Ok tt, (c', k')) ->
  exists ds, sk_recv k = map Ok ds ++ sk_recv k' /\ c' = run C (handshake_calls (g_side g) ds) c /\ is_post_handshake c' = true /\
    (no_close_notify C (handshake_calls (g_side g) ds) c -> (~ In [] ds /\ c_state c' = Connected) \/ (In [] ds /\ c_state c' = Failed)).
Proof.
  intros Cr H. assert (Gc : c_config c = g /\ calm (c_state c) = true).
  { destruct Cr as (_ & _ & flip & host & ocsp & unique & rng & E). unfold new_conn in E. destruct (tr_new flip (g_suites g)) as [t|]; [|discriminate E]. cbn [rbind] in E.
    destruct (g_side g); [injection E; intros <-; split; reflexivity|]. destruct (match host with Some (_ :: _) => true | _ => false end); [discriminate E|].
    injection E; intros <-; split; reflexivity. }
  destruct Gc as [Gc Hc]. unfold do_handshake in H. unfold wbind at 1, on_conn at 1 in H. cbn [fst snd] in H.
  pose proof (calm_initiate C c Hc) as Hi.
  pose proof (stable_initiate_connection C sideR (sideR_stable C) c) as Sd.
  destruct (initiate_connection C c) as [[[]|e] c1] eqn:Ei; [|discriminate H]. cbn [snd] in Hi, Sd. unfold sideR in Sd. rewrite Gc in Sd.
  unfold wbind at 1 in H. cbn [fst] in H. rewrite Sd in H.
  assert (Ea : after C OInit c = c1) by (unfold after, step, bind; rewrite Ei; reflexivity).
  unfold handshake_calls. destruct (g_side g).
  - unfold wbind at 1, on_conn, data_to_send, bind, get, modify, ret, sock_send in H. cbn [fst snd] in H.
    assert (F : exists m k2, sk_recv k2 = sk_recv k /\ handshake_loop m C (cset_out [] c1, k2) = (Ok tt, (c', k'))).
    { destruct (sk_accept k); cbn [fst snd] in H; eexists; eexists; (split; [|exact H]); reflexivity. }
    destruct F as (m & k2 & Ek & F). apply loop_ends in F; [|exact Hi]. destruct F as (ds & X1 & X2 & X3 & X4). exists ds.
    split; [congruence|]. cbn [app run no_close_notify]. rewrite Ea. change (after C OFlush c1) with (cset_out [] c1).
    split; [exact X2|]. split; [exact X3|]. intros (_ & _ & N). exact (X4 N).
  - unfold wret in H. apply loop_ends in H; [|exact Hi]. destruct H as (ds & X1 & X2 & X3 & X4). exists ds.
    split; [exact X1|]. cbn [app run no_close_notify]. rewrite Ea. split; [exact X2|]. split; [exact X3|]. intros (_ & N). exact (X4 N).
Qed.

(* --- leaving ---------------------------------------------------------------- *)
Lemma close_shut C c k c' k' : wclose C (c, k) = (Ok tt, (c', k')) -> can_send (c_state c') = false /\ c_out c' = [].
Proof.
  unfold wclose. unfold wbind at 1, on_conn at 1. cbn [fst snd]. destruct (close_sending_end C c) as [[[]|e] c1] eqn:E; [|discriminate].
  intro H. assert (c' = cset_out [] c1) as ->.
  { unfold flush, wbind, on_conn, data_to_send, bind, get, modify, ret, sock_send, wret in H. cbn [fst snd] in H.
    destruct (c_out c1); cbn [is_nil fst snd] in H; [|destruct (sk_accept k)]; injection H; intros <- <-; reflexivity. }
  split; [|reflexivity]. cbn [c_state cset_out]. unfold close_sending_end in E. rewrite bind_get in E.
  set (m := match c_state c with Closed _ _ | Failed => ret tt | _ => set_state (Closed true true) end) in E.
  assert (M : exists c2, m c = (Ok tt, c2) /\ match c_state c2 with Closed _ _ | Failed => True | _ => False end).
  { unfold m. destruct (c_state c) eqn:Es; eexists; (split; [reflexivity|]); cbn; try exact Logic.I; rewrite Es; exact Logic.I. }
  destruct M as (c2 & M1 & M2). unfold bind at 1 in E. rewrite M1, bind_get in E.
  destruct (can_send (c_state c2)) eqn:Ec; [|injection E; intros <-; exact Ec].
  unfold bind in E. pose proof (sending_content C (KAlert WARNING CLOSE_NOTIFY) c2) as [S _].
  destruct (send_content C (KAlert WARNING CLOSE_NOTIFY) c2) as [[[]|e] c3]; [|discriminate E]. cbn [snd] in S.
  assert (S3 : c_state c3 = c_state c2) by (rewrite S; reflexivity). injection E; intros <-. rewrite S3.
  destruct (c_state c2) eqn:E2; try destruct M2; [reflexivity | discriminate Ec].
Qed.
Lemma close_quiet C c k : (c_state c = Failed \/ exists r, c_state c = Closed r false) -> fst (wclose C (c, k)) = Ok tt.
Proof.
  intro H. unfold wclose, wbind, on_conn. cbn [fst snd].
  assert (E : close_sending_end C c = (Ok tt, c)).
  { unfold close_sending_end, bind, get, ret. destruct H as [H|[r H]]; rewrite !H; reflexivity. }
  rewrite E. unfold flush, wbind, on_conn, data_to_send, bind, get, modify, ret, sock_send, wret. cbn [fst snd].
  destruct (c_out c); cbn [is_nil fst snd]; [|destruct (sk_accept k)]; reflexivity.
Qed.
