(* flights in pieces *)
From Verif Require Import Base Iana Crypto Config Cipher Conn S_Hist S_Conn S_Send S_Deliver S_Split S_Honest P_Base P_Monad P_Hist P_Nonce P_Split P_Pieces P_Honest10.

Lemma run_app C a b c : run C (a ++ b) c = run C b (run C a c).
Proof. revert c. induction a as [|o a IH]; intro c; [reflexivity | apply IH]. Qed.
Lemma smooth_app C a b c : smooth C a c -> smooth C b (run C a c) -> smooth C (a ++ b) c.
Proof. revert c. induction a as [|o a IH]; intros c; [auto|]. intros [H1 H2] H3. split; [exact H1 | apply IH; assumption]. Qed.
Lemma smooth_head C a b c : smooth C (a ++ b) c -> smooth C a c /\ smooth C b (run C a c).
Proof. revert c. induction a as [|o a IH]; intros c; [cbn; auto|]. cbn [app smooth run]. intros [H1 H2]. destruct (IH _ H2). auto. Qed.

Lemma feed_run C : forall ds c c1, feed C ds c = (Ok tt, c1, []) -> run C (map ORecv ds) c = c1 /\ smooth C (map ORecv ds) c.
Proof.
  induction ds as [|d ds IH]; intros c c1 F; [cbn in *; split; [congruence | exact Logic.I]|].
  cbn [feed] in F. destruct (receive_data C d c) as [[[]|e] c2] eqn:E; [|discriminate].
  destruct (IH _ _ F) as [R S]. cbn [map run smooth]. unfold after, step, bind. rewrite E. cbn [fst snd ret]. split; [exact R|]. split; [eexists; reflexivity | exact S].
Qed.
Lemma cut_run C g c b ds : reachable C g c -> can_receive (c_state c) = true -> cut b ds -> b <> [] ->
  (exists r, fst (step C (ORecv b) c) = Ok r) -> calm (after C (ORecv b) c) ->
  run C (map ORecv ds) c = after C (ORecv b) c /\ smooth C (map ORecv ds) c.
Proof.
  intros (c0 & ops & Cr & Ec) Hr [Eb Ne] Nb (r & Er) [Ci Ll].
  assert (N : nonceI c) by (rewrite Ec; apply nonceI_run; eapply nonceI_created; exact Cr).
  assert (K : cntI c) by (rewrite Ec; apply cntI_run; eapply cntI_created; exact Cr).
  assert (M : mfl_good c) by (rewrite Ec; apply mfl_good_run; eapply created_mfl; exact Cr).
  apply feed_run. apply pieces_same; try assumption.
  - intros ->. apply Nb. rewrite <- Eb. reflexivity.
  - rewrite Eb. unfold after, step, bind in *. destruct (receive_data C b c) as [[[]|e] c1]; [reflexivity | discriminate].
  - split; [rewrite Ci; split; [reflexivity | left; cbn; lia] | rewrite Ci; cbn; lia].
Qed.
Lemma recv_ok C b c : (exists r, fst (step C (ORecv b) c) = Ok r) -> b <> [] /\ can_receive (c_state c) = true.
Proof.
  intros (r & E). unfold step, receive_data, bind, raise, get in E. destruct b as [|x b]; [discriminate|]. split; [discriminate|]. cbn [is_nil] in E.
  destruct (can_receive (c_state c)); [reflexivity | discriminate].
Qed.
Lemma honest_cut C gc gs c s ds1 ds2 ds3 : honest_crypto C -> compatible C gc gs c s ->
  wide_fragments gc -> first_share gc gs -> no_ccm gc gs ->
  cut (flight1 C c) ds1 -> cut (flight2 C c s) ds2 -> cut (flight3 C c s) ds3 ->
  smooth C (client_cut ds2) c /\ smooth C (server_cut ds1 ds3) s /\
  run C (client_cut ds2) c = run C (client_ops C c s) c /\ run C (server_cut ds1 ds3) s = run C (server_ops C c s) s.
Proof.
  intros HC Cp Mc Sh Nccm K1 K2 K3. destruct (honest_full C gc gs c s HC Cp Mc Sh Nccm) as (P1 & P2 & _ & _ & _ & _ & A1 & A2 & A3 & _).
  destruct (cp_created _ _ _ _ _ Cp) as [Cc Cs].
  assert (R : forall g a ops, created g a -> reachable C g (run C ops a)) by (intros g a ops H; exists a, ops; auto).
  change (client_ops C c s) with ([OInit; OFlush] ++ ORecv (flight2 C c s) :: [OFlush]) in *.
  change (server_ops C c s) with ([OInit] ++ ORecv (flight1 C c) :: OFlush :: [ORecv (flight3 C c s)]) in *.
  destruct (smooth_head _ _ _ _ P1) as [S1 (E1 & S2)]. destruct (smooth_head _ _ _ _ P2) as [T1 (E2 & T2)]. destruct T2 as (E3 & E4 & _).
  destruct (recv_ok _ _ _ E1) as [N1 L1]. destruct (recv_ok _ _ _ E2) as [N2 L2]. destruct (recv_ok _ _ _ E4) as [N3 L3].
  change (run C [OInit; OFlush; ORecv (flight2 C c s)] c) with (after C (ORecv (flight2 C c s)) (run C [OInit; OFlush] c)) in A1.
  change (run C [OInit; ORecv (flight1 C c)] s) with (after C (ORecv (flight1 C c)) (run C [OInit] s)) in A2.
  change (run C ([OInit] ++ ORecv (flight1 C c) :: OFlush :: [ORecv (flight3 C c s)]) s) with
    (after C (ORecv (flight3 C c s)) (run C [OInit; ORecv (flight1 C c); OFlush] s)) in A3.
  destruct (cut_run C gc _ _ _ (R _ _ _ Cc) L1 K2 N1 E1 A1) as [X1 Y1].
  destruct (cut_run C gs _ _ _ (R _ _ _ Cs) L2 K1 N2 E2 A2) as [X2 Y2].
  destruct (cut_run C gs _ _ _ (R _ _ [OInit; ORecv (flight1 C c); OFlush] Cs) L3 K3 N3 E4 A3) as [X3 Y3].
  change (client_cut ds2) with ([OInit; OFlush] ++ map ORecv ds2 ++ [OFlush]).
  change (server_cut ds1 ds3) with ([OInit] ++ map ORecv ds1 ++ [OFlush] ++ map ORecv ds3).
  split; [|split; [|split]].
  - apply smooth_app; [exact S1|]. apply smooth_app; [exact Y1|]. rewrite X1. exact S2.
  - apply smooth_app; [exact T1|]. apply smooth_app; [exact Y2|]. rewrite X2. apply smooth_app; [split; [exact E3 | exact Logic.I]|]. exact Y3.
  - rewrite !run_app, X1. reflexivity.
  - rewrite (run_app C [OInit]), (run_app C (map ORecv ds1)), X2, (run_app C [OFlush]). exact X3.
Qed.
Lemma accepted C g c ds c1 : reachable C g c -> (forall d, In d ds -> d <> []) -> ds <> [] ->
  receive_data C (concat ds) c = (Ok tt, c1) -> hungry c1 -> (length (c_log c1) < 1000)%nat -> feed C ds c = (Ok tt, c1, []).
Proof.
  intros (c0 & ops & Cr & Ec) Ne N0 R Hu Ll.
  assert (N : nonceI c) by (rewrite Ec; apply nonceI_run; eapply nonceI_created; exact Cr).
  assert (K : cntI c) by (rewrite Ec; apply cntI_run; eapply cntI_created; exact Cr).
  assert (M : mfl_good c) by (rewrite Ec; apply mfl_good_run; eapply created_mfl; exact Cr).
  apply pieces_same; try assumption. apply (recv_ok C (concat ds)). unfold step, bind. rewrite R. eexists. reflexivity.
Qed.
