(* The key shares of a client are drawn anew for each ClientHello (C79). *)
From Verif Require Import Base P_Base Iana Crypto Config Serial Ext Msg Hkdf Cipher Kex Sig Ocsp Transcript Conn
  S_Hist S_Conn S_Auth S_Hello S_Secret P_Monad P_Frame P_Hist P_Send P_Wp P_Codec P_Layout P_Tr S_Pack P_Pack P_Pack2 P_Auth P_Neg P_Hello.

Lemma climb_app a l b l' d : climbing a l b -> climbing b l' d -> climbing a (l ++ l') d.
Proof.
  revert a. induction l as [|i l IH]; intros a H K; cbn [climbing app] in *.
  - destruct l' as [|j l']; cbn [climbing] in *; [lia|]. split; [lia | apply K].
  - split; [apply H|]. apply IH; [apply H | exact K].
Qed.
Section fresh.
Variable C : crypto.
Definition freshR (c c' : conn) : Prop := g_side (c_config c) = Client ->
  g_side (c_config c') = Client /\ c_rng c' = c_rng c /\
  exists l is, c_hs c' = c_hs c ++ l /\ climbing (c_rngi c) is (c_rngi c') /\ Forall2 (fun i => carries C (c_rng c i)) is (hellos_of l).
Lemma fresh_pre : preorder freshR.
Proof.
  split.
  - intros c S. split; [exact S|]. split; [reflexivity|]. exists [], []. split; [symmetry; apply app_nil_r|]. split; [cbn; lia | constructor].
  - intros a b c H K S. destruct (H S) as (S1 & R1 & l & is & H1 & H2 & H3). destruct (K S1) as (S2 & R2 & l' & is' & K1 & K2 & K3).
    split; [exact S2|]. split; [congruence|]. exists (l ++ l'), (is ++ is'). split; [rewrite K1, H1, app_assoc; reflexivity|].
    split; [eapply climb_app; eassumption|]. unfold hellos_of. rewrite flat_map_app. apply Forall2_app; [exact H3|]. rewrite R1 in K3. exact K3.
Qed.
Lemma fr_same c c' : g_side (c_config c') = g_side (c_config c) -> c_rng c' = c_rng c -> c_rngi c <= c_rngi c' -> c_hs c' = c_hs c -> freshR c c'.
Proof.
  intros E1 E2 E3 E4 S. split; [congruence|]. split; [exact E2|]. exists [], []. split; [rewrite E4; symmetry; apply app_nil_r|].
  split; [exact E3 | constructor].
Qed.
Ltac fsame := intros; apply fr_same; try reflexivity; try (cbn; lia).
Lemma fr_modify f : (forall c, freshR c (f c)) -> rel freshR (modify f).
Proof. intros H c. apply H. Qed.
Lemma fr_tr A (f : transcript -> res A * transcript) : rel freshR (on_tr f). Proof. apply rel_on_tr. fsame. Qed.
Lemma fr_on A (f : cs -> res A * cs) : rel freshR (on_cipher f). Proof. apply (rel_on_cipher _ fresh_pre). fsame. Qed.
Lemma fr_draw : rel freshR draw.
Proof. intro c. unfold draw. rewrite bind_get. unfold bind, modify, ret. cbn [snd]. fsame. Qed.
Lemma fr_upd f : rel freshR (upd_nc f).
Proof. pose proof fresh_pre as P. unfold upd_nc. reli P. apply rel_modify. fsame. Qed.
Lemma fr_set s : rel freshR (set_state s). Proof. apply rel_set_state. fsame. Qed.
Lemma fr_send k : match k with KHandshake (HClientHello _ _ _ _) => False | _ => True end -> rel freshR (send_content C k).
Proof.
  intros Nk c Sd. pose proof (sending_content C k c) as [S _]. destruct (send_content C k c) as [r c'] eqn:Es. cbn [snd] in *.
  apply send_said in Es.
  assert (c_config c' = c_config c /\ c_rng c' = c_rng c /\ c_rngi c' = c_rngi c) as (E1 & E2 & E3) by (rewrite S; repeat split).
  split; [congruence|]. split; [exact E2|].
  assert (Z : c_hs c' = c_hs c -> exists l is, c_hs c' = c_hs c ++ l /\ climbing (c_rngi c) is (c_rngi c') /\ Forall2 (fun i => carries C (c_rng c i)) is (hellos_of l)).
  { intros ->. exists [], []. split; [symmetry; apply app_nil_r|]. rewrite E3. split; [cbn; lia | constructor]. }
  destruct k as [| |h| |]; cbn [said] in Es; try (apply Z; apply Es).
  destruct Es as [(_ & _ & E)|(ty & d & Et & _ & [(_ & E)|(e & _ & E & _)])]; try (apply Z; exact E).
  eexists _, []. split; [exact E|]. rewrite E3. split; [cbn; lia|]. rewrite Sd. unfold hellos_of. cbn [flat_map].
  destruct h; cbn in Et, Nk; try contradiction; try discriminate Et; injection Et; intros <-; constructor.
Qed.
Ltac fstep := repeat first
  [ apply fr_tr | apply fr_on | apply fr_draw | apply fr_upd | apply fr_set | solve [apply fr_send; exact I] | solve [apply rel_modify; fsame] ].
Ltac fr := let P := fresh "P" in pose proof fresh_pre as P; unfold ask_cipher, set_cipher, tr_method; reli P; fstep.
Lemma fr_base k : rel freshR (base_process k). Proof. unfold base_process. fr. Qed.
Lemma fr_initiate ck c : freshR c (snd (client_initiate C ck c)).
Proof.
  intros Sd. destruct fresh_pre as [Rf Tr]. revert Sd. change (freshR c (snd (client_initiate C ck c))).
  unfold client_initiate. rewrite bind_get. cbv zeta.
  destruct (g_groups (c_config c)) as [|gr grs] eqn:Eg; [apply Rf|].
  unfold bind at 1. unfold draw at 1. rewrite bind_get. unfold bind at 1, modify at 1, ret at 1. cbv beta iota.
  set (c1 := cset_rngi _ c). assert (F1 : freshR c c1) by (unfold c1; fsame).
  unfold bind at 1, lift at 1. destruct (kx_init C gr _) as [share|] eqn:Ek; [|exact F1].
  destruct (c_cunique c) as [u|]; [|exact F1].
  unfold bind at 1, lift at 1. destruct (mk_client_hello _ _ _) as [ch|] eqn:Em; [|exact F1].
  assert (exists sid su exts, ch = HClientHello u sid su exts /\ ext_get 51 exts = Some (EKeyShareReq [(gr, share)])) as (sid & su & exts & -> & X).
  { destruct (extensions_shape C (c_config c) (c_host c) ck gr share) as (N & _ & _ & _ & X4 & _).
    unfold mk_client_hello in Em. rewrite (ext_dict_nodup _ N) in Em.
    repeat match type of Em with (if ?x then _ else _) = _ => destruct x; [discriminate|] end. injection Em; intros <-.
    eexists _, _, _. split; [reflexivity | exact X4]. }
  unfold bind at 1. pose proof (sending_content C (KHandshake (HClientHello u sid su exts)) c1) as [S _].
  destruct (send_content C _ c1) as [r c2] eqn:Es2. cbn [snd] in S. apply send_said in Es2. cbn [said] in Es2.
  assert (F2 : freshR c c2).
  { assert (c_config c2 = c_config c /\ c_rng c2 = c_rng c /\ c_rngi c2 = c_rngi c + 1) as (E1 & E2 & E3) by (rewrite S; repeat split).
    assert (Z : c_hs c2 = c_hs c -> freshR c c2) by (intro; apply fr_same; [congruence | exact E2 | lia | assumption]).
    destruct Es2 as [(_ & _ & E)|(ty & d & Et & Ed & [(_ & E)|(e & _ & E & _)])]; try (apply Z; exact E).
    injection Et; intros <-. intro Sd. split; [congruence|]. split; [exact E2|]. eexists _, [c_rngi c]. split; [exact E|].
    split; [rewrite E3; cbn; lia|]. change (c_config c1) with (c_config c). rewrite Sd. cbn. constructor; [|constructor].
    exists u, sid, su, exts, gr, share. split; [exact Ed|]. split; [exact X | exact Ek]. }
  destruct r as [[]|]; [|exact F2]. apply (Tr _ _ _ F2).
  match goal with |- freshR c2 (snd (?m c2)) => assert (K : rel freshR m); [fr | apply K] end.
Qed.
Lemma fr_init : rel freshR (initiate_connection C).
Proof.
  pose proof fresh_pre as P. unfold initiate_connection. reli P; fstep. intro; apply fr_initiate.
Qed.
Lemma fr_process_hrr h e : rel freshR (client_process_hrr C h e).
Proof.
  pose proof fresh_pre as P. unfold client_process_hrr. destruct (ext_get KEY_SHARE e) as [x|]; [|reli P]. destruct x; try (reli P; fail).
  intro c. rewrite bind_get. destruct (negb _); [apply P|]. destruct (c_nc c) as [n|]; [|apply P]. destruct (n_suite n) as [su|]; [|apply P].
  unfold bind at 1, modify at 1. cbv beta iota. eapply (pre_trans _ P); [|match goal with |- freshR _ (snd (?m ?x)) => assert (K : rel freshR m); [|apply K] end]; [fsame|].
  cbv zeta. unfold tr_method. reli P; fstep; apply fr_init.
Qed.
Lemma fr_neg_hello s e : rel freshR (client_negociate_hello C s e). Proof. unfold client_negociate_hello. fr. Qed.
Lemma fr_ee k : rel freshR (process_wait_ee k).
Proof. unfold process_wait_ee, client_neg_mfl, client_neg_alpn, client_neg_heartbeat, client_neg_cct, client_neg_sct. fr; apply fr_base. Qed.
Lemma fr_cert b k : rel freshR (process_wait_certificate C b k). Proof. unfold process_wait_certificate. cbv zeta. fr; apply fr_base. Qed.
Lemma fr_cert_cr k : rel freshR (process_wait_cert_cr C k). Proof. unfold process_wait_cert_cr. fr; first [apply fr_base | apply fr_cert]. Qed.
Lemma fr_cv b h k : rel freshR (process_wait_cv C b h k). Proof. unfold process_wait_cv. fr; apply fr_base. Qed.
Lemma fr_send_hrr b s l : rel freshR (server_send_hrr C b s l).
Proof.
  pose proof fresh_pre as P. unfold server_send_hrr. destruct (negb b); [reli P|]. apply (rel_bind _ P); [apply fr_set|]. intros _ c. rewrite bind_get.
  unfold bind at 1, lift at 1. destruct (suite_of c) as [su|]; [|apply P]. unfold bind at 1, lift at 1. destruct (sig_of c) as [sg|]; [|apply P].
  unfold bind at 1. destruct (c_nc c) as [n|]; [|apply P]. cbv beta iota. unfold ret at 1. unfold bind at 1. destruct (n_group n) as [gr|]; [|apply P].
  unfold ret at 1. cbv beta iota. unfold bind at 1, modify at 1. cbv beta iota.
  eapply (pre_trans _ P); [|match goal with |- freshR _ (snd (?m ?x)) => assert (K : rel freshR m); [|apply K] end]; [fsame|].
  unfold tr_method. reli P; fstep.
Qed.
Lemma fr_send_cert : rel freshR (server_send_certificate C). Proof. unfold server_send_certificate. fr. Qed.
Lemma fr_fail a : rel freshR (fail C a). Proof. unfold fail. fr. Qed.
Lemma fr_neg e : rel freshR (server_negociate C e).
Proof.
  unfold server_negociate, server_neg_versions, server_neg_groups, server_neg_sigalgs, server_neg_key_share, server_neg_cct,
    server_neg_sct, server_neg_mfl, server_neg_alpn, server_neg_heartbeat, server_neg_status. cbv zeta. fr.
Qed.
Lemma fr_process_sh s e l : rel freshR (client_process_sh C s e l). Proof. unfold client_process_sh. fr; apply fr_neg_hello. Qed.
Lemma fr_sh f s h k : rel freshR (process_wait_sh C f s h k).
Proof. unfold process_wait_sh. fr; first [apply fr_base | apply fr_process_hrr | apply fr_process_sh]. Qed.
Lemma fr_ch f k : rel freshR (process_wait_ch C f k).
Proof. unfold process_wait_ch, server_setup, server_send_hello. fr; first [apply fr_base | apply fr_neg | apply fr_send_hrr | apply fr_send_cert]. Qed.
Lemma fr_cfin b h k : rel freshR (process_client_finished C b h k). Proof. unfold process_client_finished. fr; apply fr_base. Qed.
Lemma fr_sfin h k : rel freshR (process_server_finished C h k). Proof. unfold process_server_finished. fr; apply fr_base. Qed.
Lemma fr_process k : rel freshR (process C k).
Proof.
  unfold process. fr; first [apply fr_base | apply fr_sh | apply fr_ee | apply fr_cert_cr | apply fr_cert | apply fr_cv | apply fr_cfin | apply fr_ch | apply fr_sfin].
Qed.
Lemma fr_handle ct d : rel freshR (handle_content C ct d).
Proof.
  pose proof fresh_pre as P. unfold handle_content. apply rel_get. intro c. unfold bind at 1, lift. destruct (parse_content C _ ct d) as [k|]; [|apply P].
  match goal with |- freshR c (snd (bind ?m _ c)) => assert (F : freshR c (snd (m c))) end.
  { destruct k as [| |h| |]; try apply P. destruct (msg_type h) as [ty|]; [|apply P]. unfold transcribe, on_tr, bind.
    destruct (tr_update d _ ty (c_tr c)) as [[[]|] t]; [|cbn [snd]; fsame]. cbn [modify snd].
    intro Sd. split; [exact Sd|]. split; [reflexivity|]. eexists _, []. split; [reflexivity|]. split; [cbn; lia|]. rewrite Sd. constructor. }
  unfold bind. match goal with |- freshR c (snd (match ?m with _ => _ end)) => destruct m as [[[]|] c1]; cbn [snd] in F end; [|exact F].
  eapply (pre_trans _ P); [exact F | apply fr_process].
Qed.
Lemma fr_record : rel freshR (read_next_record C). Proof. unfold read_next_record. cbv zeta. fr. Qed.
Lemma fr_fill n : rel freshR (fill_handshake n C).
Proof. pose proof fresh_pre as P. induction n as [|n IH]; cbn [fill_handshake]; reli P; try apply fr_record; try apply IH; fstep. Qed.
Lemma fr_content : rel freshR (read_next_content C).
Proof. pose proof fresh_pre as P. unfold read_next_content. reli P; try apply fr_record; try apply fr_fill; fstep. Qed.
Lemma fr_one : rel freshR (receive_one C).
Proof. pose proof fresh_pre as P. unfold receive_one. reli P; [apply fr_content | apply fr_handle]. Qed.
Lemma fr_guarded m : rel freshR m -> rel freshR (guarded C m).
Proof.
  intros H c. specialize (H c). unfold guarded. destruct (m c) as [[b|e] c1]; cbn [snd] in H; [exact H|].
  match goal with |- context [fail C ?a c1] => pose proof (fr_fail a c1) as K; destruct (fail C a c1) as [[|] c2] end;
  cbn [snd] in *; eapply fresh_pre; eassumption.
Qed.
Lemma fr_loop n : rel freshR (receive_loop n C).
Proof. pose proof fresh_pre as P. induction n as [|n IH]; cbn [receive_loop]; reli P; try (apply fr_guarded, fr_one); apply IH. Qed.
Lemma fr_step o : rel freshR (step C o).
Proof.
  pose proof fresh_pre as P. destruct o; cbn [step]; reli P.
  - exact fr_init.
  - unfold receive_data. reli P; try apply fr_loop; fstep. unfold rekey. reli P.
  - fstep.
  - unfold data_to_read. reli P. fstep.
  - unfold data_to_send. reli P. fstep.
  - unfold rekey. reli P.
  - unfold close_receiving_end. reli P; try apply fr_fail; fstep.
  - unfold close_sending_end. reli P; fstep.
    apply rel_modify. intro z0. destruct (c_state z0); fsame.
Qed.
Lemma fr_run ops : forall c, freshR c (run C ops c).
Proof.
  induction ops as [|o ops IH]; intro c; cbn [run]; [apply fresh_pre|]. eapply (pre_trans _ fresh_pre); [apply (fr_step o) | apply IH].
Qed.
End fresh.
Lemma climb_bounds a l b : climbing a l b -> NoDup l /\ Forall (fun i => a <= i < b) l /\ a <= b.
Proof.
  revert a. induction l as [|i l IH]; intros a H; cbn [climbing] in H; [split; [constructor|]; split; [constructor | exact H]|].
  destruct H as [H1 H2]. destruct (IH _ H2) as (I1 & I2 & I3). split; [|split; [constructor; [lia|] | lia]].
  - constructor; [|exact I1]. intro B. rewrite Forall_forall in I2. specialize (I2 _ B). lia.
  - eapply Forall_impl; [|exact I2]. cbn. lia.
Qed.
Lemma shares_fresh C g c : reachable C g c -> g_side g = Client ->
  exists is, NoDup is /\ Forall2 (fun i d => carries C (c_rng c i) d) is (hellos_of (c_hs c)).
Proof.
  intros (c0 & ops & Cr & ->) Sd. pose proof (fr_run C ops c0) as F.
  destruct (created_cases _ _ Cr) as [(_ & host & ocsp & u & rng & t & -> & _)|(E & _)]; [|congruence].
  destruct (F Sd) as (_ & Er & l & is & El & Cl & Fo). exists is. split; [eapply climb_bounds; exact Cl|]. rewrite El, Er. exact Fo.
Qed.
