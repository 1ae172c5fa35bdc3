(* The two examples talk to each other. *)
From Verif Require Import Base Iana Crypto Config Ext Msg Cipher Conn S_Hist S_Conn S_Send S_Alert S_Auth S_Deliver S_Split S_State S_Honest Wrapper Examples S_Net S_Http
  P_Base P_Monad P_Hist P_Frame P_Nonce P_Rec P_Split P_Deliver P_Pieces P_Buf P_State P_Mute P_Count P_Flight P_Honest P_Honest10 P_Honest12 P_Net P_Net2 P_Net3 P_Order P_Http P_Talk P_Talk2 P_Talk3 P_Notify.
Local Open Scope string_scope.
Local Open Scope list_scope.
Local Open Scope N_scope.

Lemma honest_stands C gc gs c s : honest_crypto C -> compatible C gc gs c s ->
  wide_fragments gc -> first_share gc gs -> no_ccm gc gs ->
  exists s2, stands C (run C [OInit] s) (flight1 C c) /\ receive_data C (flight1 C c) (run C [OInit] s) = (Ok tt, s2) /\
    c_out s2 = flight2 C c s /\ fl s2 = run C [OInit; ORecv (flight1 C c); OFlush] s /\
    stands C (run C [OInit; ORecv (flight1 C c); OFlush] s) (flight3 C c s) /\
    receive_data C (flight3 C c s) (run C [OInit; ORecv (flight1 C c); OFlush] s) = (Ok tt, run C (server_ops C c s) s).
Proof.
  intros HC Cp Mc Sh Nccm. destruct (honest_full C gc gs c s HC Cp Mc Sh Nccm) as (P1 & P2 & Q1 & Q2 & _ & _ & A1 & A2 & A3 & Sp).
  destruct (cp_created _ _ _ _ _ Cp) as [Cc Cs].
  assert (R : forall g a ops, created g a -> reachable C g (run C ops a)) by (intros g a ops H; exists a, ops; auto).
  destruct Sp as (L1 & (A & B & m & EF2 & NA & RA & Cm & Pm & LB) & L3 & Oc & Os & Pc & Ps & Ps3 & Oend).
  change (server_ops C c s) with ([OInit] ++ ORecv (flight1 C c) :: OFlush :: [ORecv (flight3 C c s)]) in *.
  destruct (smooth_head _ _ _ _ P2) as [_ (E2 & T2)]. destruct T2 as (_ & E4 & _).
  destruct (recv_ok _ _ _ E2) as [N2 K2]. destruct (recv_ok _ _ _ E4) as [N3 K3].
  apply after_recv in E2. apply after_recv in E4.
  change (after C (ORecv (flight1 C c)) (run C [OInit] s)) with (run C [OInit; ORecv (flight1 C c)] s) in E2.
  change (after C OFlush (run C [OInit; ORecv (flight1 C c)] s)) with (run C [OInit; ORecv (flight1 C c); OFlush] s) in *.
  change (run C ([OInit] ++ ORecv (flight1 C c) :: OFlush :: [ORecv (flight3 C c s)]) s) with
    (after C (ORecv (flight3 C c s)) (run C [OInit; ORecv (flight1 C c); OFlush] s)) in *.
  assert (Ll : (length (c_log (run C [OInit] s)) < 1000)%nat).
  { pose proof (log_run C [ORecv (flight1 C c)] (run C [OInit] s)) as H0. assert (H1 : (length (c_log (run C [ORecv (flight1 C c)] (run C [OInit] s))) < 1000)%nat) by exact (proj2 A2). lia. }
  exists (run C [OInit; ORecv (flight1 C c)] s). split; [|split; [exact E2 | split; [reflexivity | split; [reflexivity | split; [|exact E4]]]]].
  - destruct (young C gs _ (R gs s [OInit] Cs) Ll) as [Y1 Y2]. split; assumption.
  - destruct (young C gs _ (R gs s [OInit; ORecv (flight1 C c); OFlush] Cs) (proj2 A2)) as [Y1 Y2]. split; assumption || reflexivity.
Qed.

Lemma handshake_local C l c r a s c' r' a' s' : do_handshake C (c, mkSock r a s) = (Ok tt, (c', mkSock r' a' s')) ->
  do_handshake C (c, mkSock (r ++ l) a s) = (Ok tt, (c', mkSock (r' ++ l) a' s')).
Proof.
  unfold do_handshake, wbind, on_conn. cbn [fst snd]. destruct (initiate_connection C c) as [[[]|e] c1]; [|discriminate]. cbn [fst snd].
  destruct (g_side (c_config c1)).
  - cbn [fst snd]. destruct (data_to_send c1) as [[out|e] c2]; [|discriminate]. unfold sock_send. cbn [snd fst sk_accept sk_recv sk_sent].
    destruct a as [|n a]; cbn [snd fst sk_accept sk_recv sk_sent]; intro E.
    + apply (loop_local C l _ _ _ _ _ _ E). cbn [sk_recv]. rewrite app_length. lia.
    + apply (loop_local C l _ _ _ _ _ _ E). cbn [sk_recv]. rewrite app_length. lia.
  - unfold wret. cbn [snd fst sk_accept sk_recv sk_sent]. intro E. apply (loop_local C l _ _ _ _ _ _ E). cbn [sk_recv]. rewrite app_length. lia.
Qed.

Lemma ends_sym C ga gb a b : ends C ga gb a b -> ends C gb ga b a.
Proof.
  intros [E1 E2 O1 O2 A1 A2 S1 S2 R1 R2 L G1 G2]. split; try assumption. destruct E1 as (s & g & F). eapply flow_limited; eassumption.
Qed.
Lemma honest_ends C gc gs c s : honest_crypto C -> compatible C gc gs c s ->
  wide_fragments gc -> first_share gc gs -> no_ccm gc gs ->
  ends C gc gs (run C (client_ops C c s) c) (run C (server_ops C c s) s) /\
  (length (c_log (run C (client_ops C c s) c)) < 1000)%nat /\ (length (c_log (run C (server_ops C c s) s)) < 1000)%nat.
Proof.
  intros HC Cp Mc Sh Nccm. destruct (honest_full C gc gs c s HC Cp Mc Sh Nccm) as (P1 & P2 & Q1 & Q2 & Lk & _ & A1 & A2 & A3 & Sp).
  destruct (cp_created _ _ _ _ _ Cp) as [Cc Cs]. destruct (cp_sides _ _ _ _ _ Cp) as [Gc Gs].
  assert (La : (length (c_log (run C (client_ops C c s) c)) < 1000)%nat) by exact (proj2 A1).
  pose proof (proj2 A3) as Lb.
  assert (Rc : reachable C gc (run C (client_ops C c s) c)) by (exists c, (client_ops C c s); auto).
  assert (Rs : reachable C gs (run C (server_ops C c s) s)) by (exists s, (server_ops C c s); auto).
  set (cn := run C (client_ops C c s) c) in *. set (sn := run C (server_ops C c s) s) in *. clearbody cn sn.
  split; [|split; [exact La | exact Lb]].
  destruct Lk as (K1 & K2 & _). cbn [w_a w_b] in K1, K2.
  pose proof K1 as (Ky & _ & _ & X1 & _ & _ & _ & X2). pose proof K2 as (_ & _ & _ & X3 & _ & _ & _ & X4).
  assert (Rm : room cn) by (apply (client_few C gc cn); try assumption; [apply HC | apply HC | apply HC | unfold few; lia]).
  split; try assumption; try lia.
  - exists [], []. apply flow_start. exact K1.
  - exists [], []. apply flow_start. exact K2.
  - intros x Ex. destruct Ky as (x1 & y & k & Y1 & _ & _ & Y4 & _). rewrite Ex in Y1. injection Y1 as <-.
    destruct (Rm x Ex) as (lim & I & _); [unfold enc_on, must_encrypt; rewrite Ex, Y4; reflexivity|]. apply P_Alert.limit_table_usage in I. rewrite I. discriminate.
Qed.

Lemma talk C gc gs c s req res line version date : honest_crypto C -> compatible C gc gs c s ->
  wide_fragments gc -> first_share gc gs -> no_ccm gc gs ->
  req <> [] -> blen req <= 480 -> res <> [] -> blen res <= 480 ->
  verdict req = (Some line, 200) -> utf8_encode (http_response version date 200 (body_of 200)) = Some res ->
  exists q a nc ns s', nc <> [] /\ ns <> [] /\ c_state s' = Closed true false /\
  forall ds1 ds2 ds3 ds4 p r lc ls, cut (flight1 C c) ds1 -> cut (flight2 C c s) ds2 -> cut (flight3 C c s ++ q) ds3 -> ns = p ++ r -> cut (a ++ p) ds4 ->
    (exists c' ds5 ds6, ds4 = ds5 ++ ds6 /\ c_state c' = Closed true false /\
      simple_client C req (c, mkSock (map Ok (ds2 ++ ds4) ++ lc) [] []) =
        (Ok res, (c', mkSock (map Ok ds6 ++ lc) [] (flight1 C c ++ flight3 C c s ++ q ++ nc)))) /\
    handle_one C version date (s, mkSock (map Ok (ds1 ++ ds3) ++ ls) [] []) =
      (Ok tt, (s', mkSock ls [] (flight2 C c s ++ a ++ ns))).
Proof.
  intros HC Cp Mc Sh Nccm Nq Lq Nr Lr Hv He.
  pose proof (hc_correct _ HC) as AC. pose proof (hc_aead _ HC) as AS.
  destruct (honest_ends C gc gs c s HC Cp Mc Sh Nccm) as (En & La & Lb).
  destruct (honest_stands C gc gs c s HC Cp Mc Sh Nccm) as (s2 & T1 & T2 & T3 & T4 & T5 & T6).
  pose proof (fun ds1 ds2 ds3 => honest_wrapped C gc gs c s ds1 ds2 ds3 HC Cp Mc Sh Nccm) as HW.
  assert (N1 : cut (flight1 C c) [flight1 C c]) by (split; [apply app_nil_r | intros d [<-|[]]; exact (st_some _ _ _ T1)]).
  assert (N3 : cut (flight3 C c s) [flight3 C c s]) by (split; [apply app_nil_r | intros d [<-|[]]; exact (st_some _ _ _ T5)]).
  assert (Hc : forall ds2 l, cut (flight2 C c s) ds2 -> do_handshake C (c, mkSock (map Ok ds2 ++ l) [] []) =
     (Ok tt, (run C (client_ops C c s) c, mkSock l [] (flight1 C c ++ flight3 C c s)))).
  { intros ds2 l K2. exact (handshake_local C l _ _ _ _ _ _ _ _ (proj1 (HW _ ds2 _ N1 K2 N3))). }
  clear HW.
  set (cn := run C (client_ops C c s) c) in *. set (sn := run C (server_ops C c s) s) in *.
  destruct (say C AC AS gc gs cn sn req En Nq Lq) as (W1 & NQ & Rd1 & Rr1 & En1 & Lg1).
  specialize (En1 ltac:(lia)). apply ends_sym in En1.
  destruct (say C AC AS gs gc _ _ res En1 Nr Lr) as (W2 & _).
  destruct (say_last C AC AS gs gc _ _ res En1 Nr Lr) as (ns & nc & s' & Ns & Nc & Ss & Ws & Wc).
  exists (said C req cn), (said C res (done sn)), nc, ns, s'. repeat (split; [assumption|]).
  intros ds1 ds2 ds3 ds4 p r lc ls [K1 E1] K2 [K3 E3] Ep [K4 E4]. split.
  - destruct (Wc ds4 p r lc ((flight1 C c ++ flight3 C c s) ++ said C req cn) Ep K4 E4) as (u & c' & ds5 & ds6 & E5 & Sc & X1 & X2).
    exists c', ds5, ds6. split; [exact E5|]. split; [exact Sc|].
    unfold simple_client, wwith, wbind. rewrite map_app, <- app_assoc, (Hc ds2 _ K2). unfold wfinally. rewrite W1.
    unfold bytes in *. rewrite X1, X2. rewrite <- !app_assoc. reflexivity.
  - clear p r Ep K4 Wc. destruct (hello_pieces C (run C [OInit] s) (run C [OInit; ORecv (flight1 C c); OFlush] s) s2 sn (flight1 C c) (flight2 C c s) (flight3 C c s) (said C req cn) ls T1 T2 T3 T4 T5 T6
      (en_outb _ _ _ _ _ En) ltac:(unfold is_post_handshake; rewrite (en_stb _ _ _ _ _ En); reflexivity) ltac:(rewrite (en_stb _ _ _ _ _ En); reflexivity) Rd1
      ds1 ds3 (S (length (map Ok (ds1 ++ ds3) ++ ls))) (run C [OInit] s) [] E1 E3 K3) as (ds' & t & H1 & H2 & H3).
    { rewrite (app_length (map Ok (ds1 ++ ds3)) ls), (map_length Ok (ds1 ++ ds3)). unfold bytes in *. lia. }
    { rewrite K1. apply inside_start. exact T1. }
    assert (Hs : do_handshake C (s, mkSock (map Ok (ds1 ++ ds3) ++ ls) [] []) = (Ok tt, (t, mkSock (map Ok ds' ++ ls) [] (flight2 C c s)))).
    { unfold do_handshake, wbind at 1, on_conn at 1. cbn [fst snd].
      destruct (cp_created _ _ _ _ _ Cp) as [_ Cs]. destruct (cp_sides _ _ _ _ _ Cp) as [_ Gs].
      destruct (honest_full C gc gs c s HC Cp Mc Sh Nccm) as (_ & P2 & _). cbn [server_ops smooth] in P2. destruct P2 as ((r & I2) & _).
      unfold step, bind in I2. pose proof (side_run C gs s [OInit] Cs) as Sd. cbn [run] in Sd. unfold after, step, bind in Sd.
      assert (E : snd (initiate_connection C s) = run C [OInit] s) by (cbn [run]; unfold after, step, bind; destruct (initiate_connection C s) as [[[]|e] x]; reflexivity).
      destruct (initiate_connection C s) as [[[]|e] x]; [|discriminate]. cbn [fst snd ret] in Sd, E. subst x. unfold wbind at 1. cbn [fst snd].
      cbn [run] in *. rewrite Sd, Gs. unfold wret. cbn [snd sk_recv fst]. exact H1. }
    unfold handle_one, wwith, wbind. rewrite Hs. unfold wfinally. rewrite (Rr1 ds' t ls _ H2 H3), Hv, He, W2, Ws. rewrite <- !app_assoc. reflexivity.
Qed.
