(* Application data needs keys. *)
From Verif Require Import Base P_Base Iana Crypto Config Serial Ext Msg Hkdf Cipher Kex Sig Ocsp Transcript Conn S_Hist S_Conn S_Send S_Speak P_Monad P_Frame P_Hist P_Send P_Wire P_Wp P_State P_Nonce P_Carry.

Definition speakI (c : conn) : Prop := speaks (c_state c) = true -> enc_on c = true.

Lemma enc_write c c' : olift cs_write (c_cipher c) (c_cipher c') -> enc_on c' = enc_on c.
Proof.
  unfold enc_on. destruct (c_cipher c) as [x|], (c_cipher c') as [y|]; cbn; try tauto; try reflexivity.
  intros [_ (H & _)]. unfold must_encrypt. rewrite H. reflexivity.
Qed.
Lemma enc_read c c' : olift cs_read (c_cipher c) (c_cipher c') -> enc_on c' = enc_on c.
Proof.
  unfold enc_on. destruct (c_cipher c) as [x|], (c_cipher c') as [y|]; cbn; try tauto; try reflexivity.
  intros [H _]. rewrite H. reflexivity.
Qed.
Lemma install_key s k iv d r d' : install s k iv d = (r, d') -> d_key d' = Some k.
Proof. unfold install. destruct (usage_limit s); intro H; injection H; intros <- _; reflexivity. Qed.
Lemma install_both_enc a b d e x r x' : install_both a b d e x = (r, x') -> must_encrypt x' = true.
Proof.
  intro H. apply (install_both_w tt) in H; [|reflexivity]. destruct H as (_ & k & iv & [H|[er H]]);
  apply install_key in H; unfold must_encrypt; rewrite H; reflexivity.
Qed.
Lemma hsk_enc C a b x v x' : derive_handshake_secrets C a b x = (Ok v, x') -> must_encrypt x' = true.
Proof.
  unfold derive_handshake_secrets. destruct (negb _); [discriminate|].
  destruct (extract_and_advance C a x) as [[s|e] x1]; [|discriminate].
  destruct (derive_hs _ _ _ _); [|discriminate]. destruct (install_both _ _ _ _ _) as [[?|?] x2] eqn:E; [|discriminate].
  apply install_both_enc in E. intro H. injection H; intros <- _. exact E.
Qed.
Lemma msk_enc C a b x r x' : derive_master_secrets C a b x = (r, x') -> must_encrypt x = true -> must_encrypt x' = true.
Proof.
  unfold derive_master_secrets. intros H M. destruct (negb _); [injection H; intros <- _; exact M|].
  destruct (derive_ap _ _ _ _ _) as [s|e]; [|injection H; intros <- _; exact M].
  destruct (install_both _ _ _ _ x) as [[?|?] x1] eqn:E; apply install_both_enc in E; injection H; intros <- _; exact E.
Qed.
Lemma msk_enc_ok C a b x v x' : derive_master_secrets C a b x = (Ok v, x') -> must_encrypt x' = true.
Proof.
  unfold derive_master_secrets. intros H. destruct (negb _); [discriminate|].
  destruct (derive_ap _ _ _ _ _) as [s|e]; [|discriminate].
  destruct (install_both _ _ _ _ x) as [[?|?] x1] eqn:E; [|discriminate]. apply install_both_enc in E; injection H; intros <- _; exact E.
Qed.

Lemma run_app C a b c : run C (a ++ b) c = run C b (run C a c).
Proof. revert c. induction a as [|o a IH]; intro c; [reflexivity | apply IH]. Qed.

Section speak.
Variable C : crypto.
Let Q : res unit -> conn -> Prop := fun _ c' => speakI c'.
Lemma sp_quiet c c' : speaks (c_state c) = false -> c_state c' = c_state c -> speakI c'.
Proof. intros A B X. rewrite B, A in X. discriminate. Qed.
Lemma sp_same c c' : c_state c' = c_state c -> enc_on c' = enc_on c -> speakI c -> speakI c'.
Proof. unfold speakI. intros -> ->. exact (fun H => H). Qed.
Lemma sp_silent s c : speaks s = false -> speakI (cset_state s c).
Proof. intros H X. cbn in X. congruence. Qed.
Lemma sp_send k c : speakI c -> speakI (snd (send_content C k c)).
Proof.
  intro H. destruct (sending_content C k c) as (E & W & _). eapply sp_same; [| |exact H].
  - rewrite E. reflexivity.
  - apply enc_write. exact W.
Qed.
Ltac quiet S := apply sp_silent; cbn; rewrite S; reflexivity.
Lemma sp_fail a c : speakI c -> speakI (snd (fail C a c)).
Proof.
  intro H. unfold fail. unfold bind.
  assert (H1 : speakI (snd ((match a with Some code => send_content C (KAlert FATAL code) | None => ret tt end) c))).
  { destruct a; [apply sp_send|]; exact H. }
  destruct ((match a with Some code => send_content C (KAlert FATAL code) | None => ret tt end) c) as [[?|?] c1]; [|exact H1].
  apply sp_silent. reflexivity.
Qed.
Lemma sp_base k c : speakI c -> wp (base_process k) c Q.
Proof.
  intro H. unfold base_process, Q. wrun; try exact H. apply sp_silent. reflexivity.
Qed.
Lemma sp_initiate c : speakI c -> wp (initiate_connection C) c Q.
Proof.
  intro H. unfold initiate_connection, Q. wstep. destruct (c_state c) eqn:S; wrun; try exact H.
  - unfold client_initiate. wrun; try exact H.
    apply wpb_send. intros [[]|e] oc0 t0 hs0 lg0 o0 _ _ _; [|apply (sp_quiet c); [rewrite S|]; reflexivity].
    wrun; try (apply (sp_quiet c); [rewrite S|]; reflexivity). apply sp_silent. reflexivity.
  - apply sp_silent. reflexivity.
Qed.
Lemma sp_wait_sh a b d k c : c_state c = ClientWaitServerHello a b d -> wp (process_wait_sh C a b d k) c Q.
Proof.
  intros S. assert (S' : speaks (c_state c) = false) by (rewrite S; reflexivity).
  assert (H : speakI c) by (apply (sp_quiet c); [exact S' | reflexivity]).
  unfold process_wait_sh, Q.
  destruct k as [| |[]| |]; try (apply sp_base; exact H);
    try (destruct a; [apply sp_base; exact H | wrun; exact H]).
  wstep. wstep; [wstep; exact H|].
  assert (K : forall c1, c_state c1 = c_state c ->
     wp (if hrr then client_process_hrr C d exts else client_process_sh C b random exts) c1 Q).
  { intros c1 S1. assert (H1 : forall c2, c_state c2 = c_state c1 -> speakI c2).
    { intros c2 E. apply (sp_quiet c); [exact S' | congruence]. } destruct hrr.
    - unfold client_process_hrr. wrun; try (apply H1; reflexivity).
      apply sp_initiate. apply sp_silent. reflexivity.
    - unfold client_process_sh, client_negociate_hello. wrun; try (apply H1; reflexivity).
      apply wpb_on_cipher; [intros _; apply H1; reflexivity|]. intros xa ra xb E1 E2. destruct ra; [|apply H1; reflexivity]. wrun; try (apply H1; reflexivity).
      apply wpb_on_cipher; [intros _; apply H1; reflexivity|]. intros ya rb yb E3 E4. destruct rb; [|apply H1; reflexivity]. wrun.
      apply sp_silent. reflexivity. }
  wrun; try (apply (sp_quiet c); [exact S' | reflexivity]); try (apply K; reflexivity).
  apply wpb_send. intros [[]|e] oc0 t0 hs0 lg0 o0 _ _ _; [|apply (sp_quiet c); [exact S' | reflexivity]]. apply K. reflexivity.
Qed.
Lemma sp_wait_ee k c : c_state c = ClientWaitEncryptedExtensions -> wp (process_wait_ee k) c Q.
Proof.
  intros S. assert (S' : speaks (c_state c) = false) by (rewrite S; reflexivity).
  apply wp_ee. unfold ee_body. destruct k as [| |[]| |]; try (apply sp_base; apply (sp_quiet c); [exact S' | reflexivity]).
  apply (wpb_rel _ _ Q negR); [apply negR_client|]. intros r c' [E _] _.
  assert (S'' : c_state c' = c_state c) by (rewrite E; reflexivity).
  destruct r; [|apply (sp_quiet c); [exact S' | exact S'']]. wrun. apply sp_silent. reflexivity.
Qed.
Lemma sp_wait_certificate m k c : c_state c = ClientWaitCertificate m -> wp (process_wait_certificate C m k) c Q.
Proof.
  intros S. assert (S' : speaks (c_state c) = false) by (rewrite S; reflexivity).
  unfold process_wait_certificate. destruct k as [| |[]| |]; try (apply sp_base; apply (sp_quiet c); [exact S' | reflexivity]).
  wrun; try (apply (sp_quiet c); [exact S' | reflexivity]); (apply sp_silent; reflexivity).
Qed.
Lemma sp_wait_cert_cr k c : c_state c = ClientWaitCertCr -> wp (process_wait_cert_cr C k) c Q.
Proof.
  intros S. assert (S' : speaks (c_state c) = false) by (rewrite S; reflexivity).
  unfold process_wait_cert_cr. destruct k as [| |[]| |]; try (apply sp_base; apply (sp_quiet c); [exact S' | reflexivity]).
  - wrun. apply sp_silent. reflexivity.
  - wrun. apply sp_wait_certificate. reflexivity.
Qed.
Lemma sp_wait_cv m h k c : c_state c = ClientWaitCertificateVerify m h -> wp (process_wait_cv C m h k) c Q.
Proof.
  intros S. assert (S' : speaks (c_state c) = false) by (rewrite S; reflexivity).
  unfold process_wait_cv. destruct k as [| |[]| |]; try (apply sp_base; apply (sp_quiet c); [exact S' | reflexivity]).
  wrun; try (apply (sp_quiet c); [exact S' | reflexivity]); (apply sp_silent; reflexivity).
Qed.
Lemma sp_client_finished m h k c : c_state c = ClientWaitFinished m h -> wp (process_client_finished C m h k) c Q.
Proof.
  intros S. assert (S' : speaks (c_state c) = false) by (rewrite S; reflexivity).
  unfold process_client_finished. destruct k as [| |[]| |]; try (apply sp_base; apply (sp_quiet c); [exact S' | reflexivity]).
  wrun; try (apply (sp_quiet c); [exact S' | reflexivity]).
  apply wpb_send. intros [[]|e] oc0 t0 hs0 lg0 o0 _ _ _; [|apply (sp_quiet c); [exact S' | reflexivity]]. wrun; try (apply (sp_quiet c); [exact S' | reflexivity]).
  apply wpb_on_cipher; [intros _; apply (sp_quiet c); [exact S' | reflexivity]|]. intros y ry y' Ey E. destruct ry; [|apply (sp_quiet c); [exact S' | reflexivity]]. wrun.
  intros _. apply msk_enc_ok in E. exact E.
Qed.
Lemma sp_server_finished h k c : c_state c = ServerWaitFinished h -> speakI c -> wp (process_server_finished C h k) c Q.
Proof.
  intros S H.
  unfold process_server_finished. destruct k as [| |[]| |]; try (apply sp_base; exact H).
  wrun; try exact H.
  apply wpb_on_cipher; [intros _; exact H|]. intros y r y' Ey E.
  assert (Y : must_encrypt y = true). { assert (speaks (c_state c) = true) as X by (rewrite S; reflexivity). specialize (H X). unfold enc_on in H. rewrite Ey in H. exact H. }
  destruct r.
  - wrun. intros _. apply msk_enc_ok in E. exact E.
  - intros _. apply msk_enc in E; [exact E | exact Y].
Qed.
Definition encR (c c' : conn) : Prop := c_state c' = c_state c /\ (enc_on c = true -> enc_on c' = true).
Lemma encR_pre : preorder encR.
Proof. split; unfold encR; [auto|]. intros a b d [A1 A2] [B1 B2]. split; [congruence | auto]. Qed.
Lemma encR_send k : rel encR (send_content C k).
Proof.
  intro c. destruct (sending_content C k c) as (E & W & _). split; [rewrite E; reflexivity|].
  rewrite (enc_write c _ W). exact (fun H => H).
Qed.
Lemma encR_cert : rel encR (server_send_certificate C).
Proof. unfold server_send_certificate. reli encR_pre; apply encR_send. Qed.
Lemma sp_hello a b d e f c c' : server_send_hello C a b d e f c = (Ok tt, c') -> enc_on c' = true.
Proof.
  unfold server_send_hello. intro H. apply bind_ok in H. destruct H as (v & c1 & _ & H). rewrite bind_get in H.
  apply bind_ok in H. destruct H as (suite & c2 & _ & H). apply bind_ok in H. destruct H as (u & c3 & _ & H).
  apply bind_ok in H. destruct H as (u4 & c4 & _ & H). apply bind_ok in H. destruct H as (u5 & c5 & _ & H).
  apply bind_ok in H. destruct H as (hh & c6 & _ & H). apply bind_ok in H. destruct H as (u7 & c7 & H1 & H).
  apply on_cipher_inv in H1. destruct H1 as [(_ & H1 & _)|(xx & x1 & _ & H1 & ->)]; [discriminate|].
  apply hsk_enc in H1. pose proof (encR_send (KHandshake (HEncExt (ext_dict e))) (cset_cipher (Some x1) c6)) as [_ X].
  rewrite H in X. apply X. exact H1.
Qed.
Lemma sp_wait_ch a k c : c_state c = ServerWaitClientHello a -> wp (process_wait_ch C a k) c Q.
Proof.
  intros S. assert (S' : speaks (c_state c) = false) by (rewrite S; reflexivity).
  unfold process_wait_ch. destruct k as [| |[]| |]; try (apply sp_base; apply (sp_quiet c); [exact S' | reflexivity]).
  wstep. match goal with |- wp (bind ?m _) c _ => assert (Rm : rel samest m) end.
  { reli samest_pre. apply samest_setup. }
  apply (wpb_rel _ _ Q samest); [exact Rm|]. clear Rm. intros [[]|e] c1 S1 _; [|apply (sp_quiet c); [exact S' | exact S1]].
  apply (wpb_rel _ _ Q negR); [apply negR_negociate|]. intros r c2 [E2 _] _.
  assert (S2 : c_state c2 = c_state c) by (rewrite E2; exact S1). clear E2.
  destruct r as [[[clear enc] [key|]]|e]; [| |apply (sp_quiet c); [exact S' | exact S2]].
  - apply (wpb_rel _ _ Q samest); [apply samest_hello|]. intros [[]|e] c3 S3 E3; unfold samest in S3; [|apply (sp_quiet c); [exact S' | congruence]].
    apply sp_hello in E3.
    wstep. match goal with |- wp (bind ?m _) _ _ => assert (Rm : rel encR m) end.
    { reli encR_pre. apply encR_send. }
    apply (wpb_rel _ _ Q encR); [exact Rm|]. clear Rm. intros [[]|e] c4 [S4 K4] _; [|apply (sp_quiet c); [exact S' | congruence]].
    apply (wpb_rel _ _ Q encR); [apply encR_cert|]. intros [[]|e] c5 [S5 K5] _; [|apply (sp_quiet c); [exact S' | congruence]].
    wrun; try (apply (sp_quiet c); [exact S' | congruence]).
    apply (wpb_rel _ _ Q encR); [apply encR_send|]. intros [[]|e] c6 [S6 K6] _; [|apply (sp_quiet c); [exact S' | congruence]].
    wrun; try (apply (sp_quiet c); [exact S' | congruence]). intros _. change (enc_on c6 = true). auto.
  - unfold server_send_hrr. wstep; [wstep; apply (sp_quiet c); [exact S' | exact S2]|]. wstep.
    wrun; try (apply sp_silent; reflexivity).
    apply wpb_send. intros [[]|e] oc0 t0 hs0 lg0 o0 _ _ _; [|intro X; discriminate X].
    wstep. apply wpb_send. intros [[]|e] oc' t' hs' lg' o' _ _ _; intro X; discriminate X.
Qed.
Lemma sp_process k c : speakI c -> wp (process C k) c Q.
Proof.
  intro H. unfold process. wstep. destruct (c_state c) eqn:S; try (apply sp_base; exact H).
  - apply sp_wait_sh; assumption.
  - apply sp_wait_ee; assumption.
  - apply sp_wait_cert_cr; assumption.
  - apply sp_wait_certificate; assumption.
  - apply sp_wait_cv; assumption.
  - apply sp_client_finished; assumption.
  - apply sp_wait_ch; assumption.
  - apply sp_server_finished; assumption.
  - destruct k; try (apply sp_base; exact H). exact H.
  - destruct can_recv; [|exact H]. destruct k; try (apply sp_base; exact H). exact H.
  - exact H.
Qed.
Lemma sp_handle ct d c : speakI c -> wp (handle_content C ct d) c Q.
Proof.
  intro H. unfold handle_content. wrun; try exact H; try (apply sp_process; exact H).
Qed.
Lemma speak_reachable g c : reachable C g c -> speakI c.
Proof.
  apply (inv_reachable C speakI speakI).
  - intros a b [E R]. apply sp_same; [rewrite E; reflexivity | apply enc_read; exact R].
  - intros a v; exact (fun H => H).
  - intros a v; exact (fun H => H).
  - intros a; exact (fun H => H).
  - intros code a _ _. apply sp_fail.
  - intros ct d a _ Ia. eapply wp_mono; [apply sp_handle; exact Ia|]. intros [|] c' K; exact K.
  - intros d a _ Ia. apply sp_send. exact Ia.
  - intros a _ Ia. exact (sp_initiate a Ia).
  - intros a _ Ia. unfold close_receiving_end. rewrite bind_get. destruct (is_post_handshake a) eqn:E; cbn [negb]; [|apply sp_fail; exact Ia].
    destruct (c_state a) eqn:Sa; apply sp_silent; reflexivity.
  - intros a _ Ia. unfold close_sending_end. rewrite bind_get.
    assert (K : forall b, speakI b -> speakI (snd ((do c <- get; (if can_send (c_state c)
      then send_content C (KAlert WARNING CLOSE_NOTIFY) ;;
           modify (fun c => match c_state c with Closed r _ => cset_state (Closed r false) c | _ => c end)
      else ret tt)) b))).
    { intros b Hb. rewrite bind_get. destruct (can_send (c_state b)); [|exact Hb].
      pose proof (sp_send (KAlert WARNING CLOSE_NOTIFY) b Hb) as K. unfold bind.
      destruct (send_content C _ b) as [[?|?] b1]; [|exact K]. unfold modify; cbn [snd] in *.
      destruct (c_state b1) eqn:Sb; try exact K. apply sp_silent. reflexivity. }
    unfold bind at 1. destruct (c_state a) eqn:Sa; unfold ret, set_state, modify;
      try (apply K; apply sp_silent; reflexivity); apply K; exact Ia.
  - intros c0 H. apply created_cases in H.
    destruct H as [(_ & host & ocsp & unique & rng & t & -> & _) | (_ & ocsp & unique & rng & t & -> & _)]; intro X; discriminate X.
Qed.

(* once it may speak, whatever happens next the keys stay *)
Definition past (s : state) : bool :=
  match s with ServerWaitFinished _ | Connected | Closed _ _ | Failed => true | _ => false end.
Definition keptI (c : conn) : Prop := past (c_state c) = true /\ enc_on c = true.
Let K : res unit -> conn -> Prop := fun _ c' => keptI c'.
Lemma kept_same c c' : c_state c' = c_state c -> enc_on c' = enc_on c -> keptI c -> keptI c'.
Proof. unfold keptI. intros -> ->. exact (fun H => H). Qed.
Lemma kept_state s c : past s = true -> keptI c -> keptI (cset_state s c).
Proof. intros H [_ E]. split; [exact H | exact E]. Qed.
Lemma kept_send k c : keptI c -> keptI (snd (send_content C k c)).
Proof.
  intro H. destruct (sending_content C k c) as (E & W & _). eapply kept_same; [| |exact H].
  - rewrite E. reflexivity.
  - apply enc_write. exact W.
Qed.
Lemma kept_fail a c : keptI c -> keptI (snd (fail C a c)).
Proof.
  intro H. unfold fail. unfold bind.
  assert (H1 : keptI (snd ((match a with Some code => send_content C (KAlert FATAL code) | None => ret tt end) c))).
  { destruct a; [apply kept_send|]; exact H. }
  destruct ((match a with Some code => send_content C (KAlert FATAL code) | None => ret tt end) c) as [[?|?] c1]; [|exact H1].
  apply kept_state; [reflexivity | exact H1].
Qed.
Lemma kept_base k c : keptI c -> wp (base_process k) c K.
Proof. intro H. unfold base_process, K. wrun; try exact H. apply kept_state; [reflexivity | exact H]. Qed.
Lemma kept_server_finished h k c : keptI c -> wp (process_server_finished C h k) c K.
Proof.
  intros H.
  unfold process_server_finished. destruct k as [| |[]| |]; try (apply kept_base; exact H).
  wrun; try exact H.
  apply wpb_on_cipher; [intros _; exact H|]. intros y ry y' Ey E.
  assert (Y : must_encrypt y = true). { destruct H as [_ H]. unfold enc_on in H. rewrite Ey in H. exact H. }
  destruct ry.
  - wrun. split; [reflexivity|]. apply msk_enc_ok in E. exact E.
  - split; [exact (proj1 H)|]. apply msk_enc in E; [exact E | exact Y].
Qed.
Lemma kept_process k c : keptI c -> wp (process C k) c K.
Proof.
  intro H. unfold process. wstep. destruct (c_state c) eqn:S; try (apply kept_base; exact H);
    try (destruct H as [H _]; rewrite S in H; discriminate H).
  - apply kept_server_finished; assumption.
  - destruct k; try (apply kept_base; exact H). exact H.
  - destruct can_recv; [|exact H]. destruct k; try (apply kept_base; exact H). exact H.
  - exact H.
Qed.
Lemma kept_handle ct d c : keptI c -> wp (handle_content C ct d) c K.
Proof. intro H. unfold handle_content. wrun; try exact H; try (apply kept_process; exact H). Qed.
Lemma kept_initiate c : keptI c -> wp (initiate_connection C) c K.
Proof.
  intro H. unfold initiate_connection, K. wstep. destruct (c_state c) eqn:S; wrun; try exact H;
  destruct H as [H _]; rewrite S in H; discriminate H.
Qed.
Lemma kept_run ops c : mfl_good c -> keptI c -> keptI (run C ops c).
Proof.
  intros M H. refine (proj2 (good_run C keptI keptI _ _ _ _ _ _ _ _ _ _ ops c (conj M H))).
  - intros a b [E R]. apply kept_same; [rewrite E; reflexivity | apply enc_read; exact R].
  - intros a v; exact (fun H => H).
  - intros a v; exact (fun H => H).
  - intros a; exact (fun H => H).
  - intros code a _ _. apply kept_fail.
  - intros ct d a _ Ia. eapply wp_mono; [apply kept_handle; exact Ia|]. intros [|] c' Kc; exact Kc.
  - intros d a _ Ia. apply kept_send. exact Ia.
  - intros a _ Ia. exact (kept_initiate a Ia).
  - intros a _ Ia. unfold close_receiving_end. rewrite bind_get. destruct (is_post_handshake a) eqn:E; cbn [negb]; [|apply kept_fail; exact Ia].
    destruct (c_state a) eqn:Sa; apply kept_state; try reflexivity; exact Ia.
  - intros a _ Ia. unfold close_sending_end. rewrite bind_get.
    assert (Z : forall b, keptI b -> keptI (snd ((do c <- get; (if can_send (c_state c)
      then send_content C (KAlert WARNING CLOSE_NOTIFY) ;;
           modify (fun c => match c_state c with Closed r _ => cset_state (Closed r false) c | _ => c end)
      else ret tt)) b))).
    { intros b Hb. rewrite bind_get. destruct (can_send (c_state b)); [|exact Hb].
      pose proof (kept_send (KAlert WARNING CLOSE_NOTIFY) b Hb) as Kb. unfold bind.
      destruct (send_content C _ b) as [[?|?] b1]; [|exact Kb]. unfold modify; cbn [snd] in *.
      destruct (c_state b1) eqn:Sb; try exact Kb. apply kept_state; [reflexivity | exact Kb]. }
    unfold bind at 1. destruct (c_state a) eqn:Sa; unfold ret, set_state, modify;
      try (apply Z; apply kept_state; [reflexivity | exact Ia]); apply Z; exact Ia.
Qed.

Lemma send_secret d c c' : valid_mfl (max_frag c) -> enc_on c = true ->
  send_data C d c = (Ok tt, c') -> secret_output C c c' d.
Proof.
  intros V E H. pose proof (valid_mfl_range _ V) as Vr.
  apply enc_on_inv in E. destruct E as (x & Ex & Em). pose proof (tag_small (cs_suite x)) as T.
  destruct (send_enc C (KAppData d) c c' x Ex Em) as (data & frags & A & (B & _) & D & _); [lia | exact H |].
  unfold must_encrypt in Em. destruct (d_key (cs_w x)) as [key|] eqn:Ek; [|discriminate].
  exists x, key, frags. eexists. split; [exact Ex|]. split; [exact Ek|]. split; [injection A; intros ->; exact B|].
  split; [exact D|]. split; [|apply seals_wrap].
  eapply Forall_impl; [|apply seals_key; unfold must_encrypt; rewrite Ek; reflexivity].
  cbn. intros s [_ S]. rewrite Ek in S. congruence.
Qed.
Lemma reachable_secret g c0 ops d c' : reachable C g c0 -> speaks (c_state c0) = true ->
  send_data C d (run C ops c0) = (Ok tt, c') -> secret_output C (run C ops c0) c' d.
Proof.
  intros R S. assert (R' : reachable C g (run C ops c0)).
  { destruct R as (z & o & Z & ->). exists z, (o ++ ops). split; [exact Z|]. symmetry. apply run_app. }
  apply send_secret; [eapply reachable_mfl; exact R'|].
  apply kept_run.
  - destruct R as (z & o & Z & ->). apply mfl_good_run. eapply created_mfl. exact Z.
  - split; [destruct (c_state c0); try discriminate S; reflexivity | eapply speak_reachable; eassumption].
Qed.
End speak.
Lemma reachable_keyed_secret C g c d c' : reachable C g c -> enc_on c = true ->
  send_data C d c = (Ok tt, c') -> secret_output C c c' d.
Proof. intros R. apply send_secret. eapply reachable_mfl; exact R. Qed.
Lemma send_error_silent C d c e c' : send_data C d c = (Err e, c') -> c_out c' = c_out c.
Proof. apply send_failed_out. Qed.
