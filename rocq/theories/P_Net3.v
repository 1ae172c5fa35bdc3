(* The schedules of an honest handshake. *)
From Verif Require Import Base Iana Crypto Config Ext Msg Cipher Conn S_Hist S_Conn S_Send S_Deliver S_Split S_State S_Honest Wrapper S_Net P_Base P_Monad P_Hist P_Frame P_Nonce P_Rec P_Split P_Deliver P_Pieces P_Buf P_State P_Mute P_Honest P_Honest10 P_Honest12 P_Net P_Net2.

Lemma left_some C b c : c_in c = [] -> one_left C b c -> b <> [].
Proof.
  intros Ei (m & z & E & _) ->. pose proof (read_empty C c Ei) as H. rewrite ext_nil in E. unfold guarded, receive_one, bind in H. rewrite E in H.
  destruct m as [ct data]. destruct (handle_content C ct data z) as [[[]|e] z1]; [discriminate|].
  destruct (fail C _ z1) as [[[]|e2] z2]; discriminate.
Qed.
Lemma after_recv C b c : (exists r, fst (step C (ORecv b) c) = Ok r) -> receive_data C b c = (Ok tt, after C (ORecv b) c).
Proof. intros (r & E). unfold after, step, bind in *. destruct (receive_data C b c) as [[[]|e] x]; [reflexivity | discriminate]. Qed.
Lemma log_run C ops c : (length (c_log c) <= length (c_log (run C ops c)))%nat.
Proof.
  revert c. induction ops as [|o ops IH]; intro c; [cbn; lia|]. cbn [run]. pose proof (IH (after C o c)) as H0.
  assert (H : cntR c (after C o c)) by (apply (stable_step C cntR o (cnt_stable C)); same_cnt). destruct H as [H _]. lia.
Qed.
Definition sideR (c c' : conn) : Prop := g_side (c_config c') = g_side (c_config c).
Lemma side_pre : preorder sideR.
Proof. split; unfold sideR; intros; congruence. Qed.
Lemma side_stable C : stable C sideR.
Proof.
  assert (K : forall A (f : cs -> res A * cs), rel sideR (on_cipher f)) by (intros A f; apply (rel_on_cipher _ side_pre); reflexivity).
  split; try exact side_pre; try (intros; reflexivity); try (intros; apply K).
  - intros exts c. unfold sideR, client_neg_mfl; rewrite bind_get.
    destruct (ext_get MAX_FRAGMENT_LENGTH exts) as [[]|]; try reflexivity;
      [destruct (mfl_octets code); [|reflexivity]; destruct (negb _); [reflexivity|]|];
      unfold upd_nc; rewrite bind_get; destruct (c_nc c); reflexivity.
  - intros exts c. unfold sideR, server_neg_mfl; rewrite bind_get.
    destruct (ext_get MAX_FRAGMENT_LENGTH exts) as [[]|]; try reflexivity;
      [destruct (mfl_octets code); [|reflexivity]|];
      unfold upd_nc, bind, get; destruct (c_nc c); reflexivity.
  - intros. unfold transcribe. reli side_pre; [apply rel_on_tr | apply rel_modify]; intros; reflexivity.
  - intros. apply rel_on_tr; intros; reflexivity.
  - intros. apply rel_on_tr; intros; reflexivity.
  - intros s0 sd. unfold set_cipher. reli side_pre; apply rel_modify; intros; reflexivity.
  - intros k c. pose proof (sending_content C k c) as (E & _). unfold sideR. rewrite E. reflexivity.
Qed.
Lemma side_run C g a ops : created g a -> g_side (c_config (run C ops a)) = g_side g.
Proof.
  intro H. assert (E : g_side (c_config a) = g_side g).
  { apply created_cases in H. destruct H as [(_ & host & ocsp & unique & rng & t & -> & _) | (_ & ocsp & unique & rng & t & -> & _)]; reflexivity. }
  rewrite <- E. clear. revert a. induction ops as [|o ops IH]; intro a; [reflexivity|]. cbn [run]. rewrite IH.
  apply (stable_step C sideR o (side_stable C)); intros; reflexivity.
Qed.
Lemma fl_flush C c : after C OFlush c = fl c /\ returned C OFlush c = c_out c.
Proof. split; reflexivity. Qed.
Lemma honest_net C gc gs c s : honest_crypto C -> compatible C gc gs c s ->
  wide_fragments gc -> first_share gc gs -> no_ccm gc gs ->
  net_both C (run C [OInit; OFlush] c) (run C [OInit] s) (run C [OInit; OFlush; ORecv (flight2 C c s)] c) (run C (server_ops C c s) s)
    (flight1 C c) (flight2 C c s) (flight3 C c s).
Proof.
  intros HC Cp Mc Sh Nccm. destruct (honest_full C gc gs c s HC Cp Mc Sh Nccm) as (P1 & P2 & Q1 & Q2 & _ & _ & A1 & A2 & A3 & Sp).
  destruct (cp_created _ _ _ _ _ Cp) as [Cc Cs].
  assert (R : forall g a ops, created g a -> reachable C g (run C ops a)) by (intros g a ops H; exists a, ops; auto).
  destruct Sp as (L1 & (A & B & m & EF2 & NA & RA & Cm & Pm & LB) & L3 & Oc & Os & Pc & Ps & Ps3 & Oend).
  change (client_ops C c s) with ([OInit; OFlush] ++ ORecv (flight2 C c s) :: [OFlush]) in *.
  change (server_ops C c s) with ([OInit] ++ ORecv (flight1 C c) :: OFlush :: [ORecv (flight3 C c s)]) in *.
  destruct (smooth_head _ _ _ _ P1) as [_ (E1 & _)]. destruct (smooth_head _ _ _ _ P2) as [_ (E2 & T2)]. destruct T2 as (_ & E4 & _).
  destruct (recv_ok _ _ _ E1) as [N1 K1]. destruct (recv_ok _ _ _ E2) as [N2 K2]. destruct (recv_ok _ _ _ E4) as [N3 K3].
  apply after_recv in E1. apply after_recv in E2. apply after_recv in E4.
  change (after C (ORecv (flight2 C c s)) (run C [OInit; OFlush] c)) with (run C [OInit; OFlush; ORecv (flight2 C c s)] c) in E1.
  change (after C (ORecv (flight1 C c)) (run C [OInit] s)) with (run C [OInit; ORecv (flight1 C c)] s) in E2.
  change (after C OFlush (run C [OInit; ORecv (flight1 C c)] s)) with (run C [OInit; ORecv (flight1 C c); OFlush] s) in *.
  change (run C ([OInit] ++ ORecv (flight1 C c) :: OFlush :: [ORecv (flight3 C c s)]) s) with
    (after C (ORecv (flight3 C c s)) (run C [OInit; ORecv (flight1 C c); OFlush] s)) in *.
  change (run C ([OInit; OFlush] ++ ORecv (flight2 C c s) :: [OFlush]) c) with (fl (run C [OInit; OFlush; ORecv (flight2 C c s)] c)) in *.
  assert (Ll : (length (c_log (run C [OInit] s)) < 1000)%nat).
  { pose proof (log_run C [ORecv (flight1 C c)] (run C [OInit] s)) as H0. assert (H1 : (length (c_log (run C [ORecv (flight1 C c)] (run C [OInit] s))) < 1000)%nat) by exact (proj2 A2). lia. }
  assert (Cw : receive_data C A (run C [OInit; OFlush] c) = (Ok tt, m)) by exact RA.
  assert (NB : B <> []) by exact (left_some _ _ _ (proj1 Cm) LB).
  assert (RB : exists x, receive_data C B (fl m) = (Ok tt, x)).
  { assert (At : at_ C (run C [OInit; OFlush] c) A (fl m) (c_out m)).
    { exists [A], m. split; [intros d [<-|[]]; exact NA|]. split; [apply app_nil_r|]. cbn [feed]. rewrite RA. auto. }
    destruct (at_piece C gc _ _ _ (R _ _ _ Cc) E1 A1 A (fl m) (c_out m) B [] At) as (x & E & _); [rewrite app_nil_r; exact EF2 | exact NB|]. exists x. exact E. }
  destruct RB as (xB & RB). assert (KB : B <> [] /\ can_receive (c_state (fl m)) = true) by (apply (recv_ok C); unfold step, bind; rewrite RB; eexists; reflexivity).
  assert (Rm : reachable C gc (fl m)).
  { exists c, [OInit; OFlush; ORecv A; OFlush]. split; [exact Cc|]. cbn [run]. unfold after at 1 2, step, bind.
    change (after C OFlush (after C OInit c)) with (run C [OInit; OFlush] c). rewrite RA. reflexivity. }
  apply (net_both_holds C gc (run C [OInit; OFlush] c) (run C [OInit] s) (run C [OInit; ORecv (flight1 C c); OFlush] s) m
    (run C [OInit; OFlush; ORecv (flight2 C c s)] c) (run C [OInit; ORecv (flight1 C c)] s)
    (after C (ORecv (flight3 C c s)) (run C [OInit; ORecv (flight1 C c); OFlush] s))
    (flight1 C c) (flight2 C c s) (flight3 C c s) A B); try assumption; try reflexivity.
  - apply R. exact Cc.
  - unfold is_post_handshake. change (c_state (run C [OInit; OFlush; ORecv (flight2 C c s)] c)) with (c_state (fl (run C [OInit; OFlush; ORecv (flight2 C c s)] c))). rewrite Q1. reflexivity.
  - destruct (young C gs _ (R gs s [OInit] Cs) Ll) as [Y1 Y2]. split; assumption.
  - destruct (young C gs _ (R gs s [OInit; ORecv (flight1 C c); OFlush] Cs) (proj2 A2)) as [Y1 Y2]. split; assumption || reflexivity.
  - unfold is_post_handshake. rewrite Q2. reflexivity.
  - destruct (young C gc (fl m) Rm (proj2 Cm)) as [Y1 Y2]. split; [apply one_left_fl; exact LB | reflexivity | exact Pm | exact (proj2 KB) | exact Y1 | exact Y2 | exact NB].
Qed.
Lemma honest_schedules C gc gs c s n w : honest_crypto C -> compatible C gc gs c s ->
  wide_fragments gc -> first_share gc gs -> no_ccm gc gs ->
  net_run C n (net_start C c s) w ->
  (n <= length (flight1 C c) + length (flight2 C c s) + length (flight3 C c s))%nat /\
  (forall r w', net_step C w r w' -> r = Ok tt) /\
  (net_done w \/ exists w', net_step C w (Ok tt) w') /\
  (net_done w -> w = mkNet (run C (client_ops C c s) c) (run C (server_ops C c s) s) [] []).
Proof. intros HC Cp Mc Sh Nccm. exact (proj1 (honest_net C gc gs c s HC Cp Mc Sh Nccm) n w). Qed.
Lemma honest_wrapped C gc gs c s ds1 ds2 ds3 : honest_crypto C -> compatible C gc gs c s ->
  wide_fragments gc -> first_share gc gs -> no_ccm gc gs ->
  cut (flight1 C c) ds1 -> cut (flight2 C c s) ds2 -> cut (flight3 C c s) ds3 ->
  do_handshake C (c, mkSock (map Ok ds2) [] []) = (Ok tt, (run C (client_ops C c s) c, mkSock [] [] (flight1 C c ++ flight3 C c s))) /\
  do_handshake C (s, mkSock (map Ok (ds1 ++ ds3)) [] []) = (Ok tt, (run C (server_ops C c s) s, mkSock [] [] (flight2 C c s))).
Proof.
  intros HC Cp Mc Sh Nccm K1 K2 K3. destruct (proj2 (honest_net C gc gs c s HC Cp Mc Sh Nccm) ds1 ds2 ds3 K1 K2 K3) as [Lc Ls].
  destruct (cp_created _ _ _ _ _ Cp) as [Cc Cs]. destruct (cp_sides _ _ _ _ _ Cp) as [Sc Ss].
  destruct (honest_full C gc gs c s HC Cp Mc Sh Nccm) as (P1 & P2 & _). cbn [client_ops server_ops smooth] in P1, P2. destruct P1 as (I1 & _), P2 as (I2 & _).
  split; unfold do_handshake, wbind at 1, on_conn at 1; cbn [fst snd].
  - destruct I1 as (r & I1). unfold step, bind in I1. pose proof (side_run C gc c [OInit] Cc) as G1. cbn [run] in G1. unfold after, step, bind in G1.
    assert (E : snd (initiate_connection C c) = run C [OInit] c) by (cbn [run]; unfold after, step, bind; destruct (initiate_connection C c) as [[[]|e] x]; reflexivity).
    destruct (initiate_connection C c) as [[[]|e] x]; [|discriminate]. cbn [fst snd ret] in G1, E. subst x. unfold wbind at 1. cbn [fst snd].
    cbn [run] in *. rewrite G1, Sc. unfold wbind, on_conn, data_to_send. cbn -[handshake_loop after run client_ops flight1 flight3 map length]. rewrite map_length. apply Lc. lia.
  - destruct I2 as (r & I2). unfold step, bind in I2. pose proof (side_run C gs s [OInit] Cs) as G1. cbn [run] in G1. unfold after, step, bind in G1.
    assert (E : snd (initiate_connection C s) = run C [OInit] s) by (cbn [run]; unfold after, step, bind; destruct (initiate_connection C s) as [[[]|e] x]; reflexivity).
    destruct (initiate_connection C s) as [[[]|e] x]; [|discriminate]. cbn [fst snd ret] in G1, E. subst x. unfold wbind at 1. cbn [fst snd].
    cbn [run] in *. rewrite G1, Ss. unfold wret. cbn [snd sk_recv fst]. rewrite map_length. apply Ls. lia.
Qed.
Lemma net_more C n w w1 : net_run C n w w1 -> forall w2, net_step C w1 (Ok tt) w2 -> net_run C (S n) w w2.
Proof. intros H w2 St. eapply net_trans; eassumption. Qed.
Lemma net_first C n w1 w2 : net_run C n w1 w2 -> forall w, net_step C w (Ok tt) w1 -> net_run C (S n) w w2.
Proof.
  induction 1 as [w1|n w1 w2 w3 R IH St]; intros w F; [eapply net_trans; [apply net_refl | exact F]|].
  eapply net_trans; [apply IH; exact F | exact St].
Qed.
Lemma net_bounded C w0 b : (forall n w, net_run C n w0 w -> (n <= b)%nat /\ (net_done w \/ exists w', net_step C w (Ok tt) w')) ->
  forall k n w, net_run C n w0 w -> (b < n + k)%nat -> exists m w', net_run C m w w' /\ net_done w'.
Proof.
  intro H. induction k as [|k IH]; intros n w R L; destruct (H n w R) as [B P]; [lia|]. destruct P as [D|(w' & St)].
  - exists 0%nat, w. split; [apply net_refl | exact D].
  - destruct (IH (S n) w' (net_more _ _ _ _ R _ St)) as (m & w2 & R2 & D); [lia|]. exists (S m), w2. split; [eapply net_first; eassumption | exact D].
Qed.
Lemma honest_finishes C gc gs c s n w : honest_crypto C -> compatible C gc gs c s ->
  wide_fragments gc -> first_share gc gs -> no_ccm gc gs ->
  net_run C n (net_start C c s) w -> exists m w', net_run C m w w' /\ net_done w'.
Proof.
  intros HC Cp Mc Sh Nccm R. set (b := (length (flight1 C c) + length (flight2 C c s) + length (flight3 C c s))%nat).
  apply (net_bounded C (net_start C c s) b) with (k := S b) (n := n); [|exact R | lia].
  intros n' w1 R'. destruct (honest_schedules C gc gs c s n' w1 HC Cp Mc Sh Nccm R') as (H1 & _ & H2 & _). auto.
Qed.
