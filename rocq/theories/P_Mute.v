(* What a connection does does not depend on the output that was not taken yet. *)
From Verif Require Import Base P_Base Iana Crypto Config Serial Ext Msg Hkdf Cipher Kex Sig Ocsp Transcript Conn S_Hist S_Conn S_Split P_Monad P_Frame P_Rec P_Split.

Definition pre (o : bytes) (c : conn) : conn := cset_out (o ++ c_out c) c.
Definition mute {A} (m : M A) : Prop := forall c v, m (pre v c) = (fst (m c), pre v (snd (m c))).
Section mutes.
Variable C : crypto.
Lemma mu_ret A (a : A) : mute (ret a). Proof. intros c v. reflexivity. Qed.
Lemma mu_raise A e : mute (@raise A e). Proof. intros c v. reflexivity. Qed.
Lemma mu_lift A (r : res A) : mute (lift r). Proof. intros c v. reflexivity. Qed.
Lemma mu_modify f : (forall c v, f (pre v c) = pre v (f c)) -> mute (modify f).
Proof. intros H c v. unfold modify. rewrite H. reflexivity. Qed.
Lemma mu_bind A B (m : M A) (f : A -> M B) : mute m -> (forall a, mute (f a)) -> mute (bind m f).
Proof.
  intros H K c v. unfold bind. rewrite (H c v). destruct (m c) as [[a|e] c1]; cbn [fst snd]; [apply K | reflexivity].
Qed.
Lemma mu_get A (f : conn -> M A) : (forall c v, f (pre v c) = f c) -> (forall c, mute (f c)) -> mute (bind get f).
Proof. intros H K c v. rewrite !bind_get, H. apply K. Qed.
Lemma mu_tr A (f : transcript -> res A * transcript) : mute (on_tr f).
Proof. intros c v. unfold on_tr. change (c_tr (pre v c)) with (c_tr c). destruct (f (c_tr c)); reflexivity. Qed.
Lemma mu_method f : mute (tr_method f). Proof. apply mu_tr. Qed.
Lemma mu_set s : mute (set_state s). Proof. apply mu_modify. reflexivity. Qed.
Ltac mu0 := repeat (cbv zeta; lazymatch goal with
  | |- mute (bind get _) => apply mu_get; [reflexivity | intro]
  | |- mute (bind _ _) => apply mu_bind; [|intro]
  | |- mute (ret _) => apply mu_ret
  | |- mute (raise _) => apply mu_raise
  | |- mute (lift _) => apply mu_lift
  | |- mute (modify _) => apply mu_modify; intros; first [reflexivity | unfold pre; cbn [c_out cset_out]; rewrite <- app_assoc; reflexivity]
  | |- mute (set_state _) => apply mu_set
  | |- mute (tr_method _) => apply mu_method
  | |- mute (on_tr _) => apply mu_tr
  | |- mute (match ?x with _ => _ end) => destruct x eqn:?
  end).
Lemma mu_upd f : mute (upd_nc f). Proof. unfold upd_nc. mu0. Qed.
Lemma mu_ask A (f : cs -> res A) : mute (ask_cipher f). Proof. unfold ask_cipher. mu0. Qed.
Lemma mu_on A (f : cs -> res A * cs) : mute (on_cipher f). Proof. unfold on_cipher. mu0. Qed.
Lemma mu_cipher s sd : mute (set_cipher s sd). Proof. unfold set_cipher. mu0. Qed.
Lemma mu_transcribe d sd ty : mute (transcribe d sd ty). Proof. unfold transcribe. mu0. Qed.
Lemma mu_digest : mute (digest C). Proof. unfold digest. mu0. Qed.
Lemma mu_draw : mute draw. Proof. unfold draw. mu0. Qed.
Ltac mu := repeat (cbv zeta; lazymatch goal with
  | |- mute (bind get _) => apply mu_get; [reflexivity | intro]
  | |- mute (bind _ _) => apply mu_bind; [|intro]
  | |- mute (ret _) => apply mu_ret
  | |- mute (raise _) => apply mu_raise
  | |- mute (lift _) => apply mu_lift
  | |- mute (modify _) => apply mu_modify; intros; first [reflexivity | unfold pre; cbn [c_out cset_out]; rewrite <- app_assoc; reflexivity]
  | |- mute (set_state _) => apply mu_set
  | |- mute (tr_method _) => apply mu_method
  | |- mute (on_tr _) => apply mu_tr
  | |- mute (upd_nc _) => apply mu_upd
  | |- mute (ask_cipher _) => apply mu_ask
  | |- mute (on_cipher _) => apply mu_on
  | |- mute (set_cipher _ _) => apply mu_cipher
  | |- mute (transcribe _ _ _) => apply mu_transcribe
  | |- mute (digest _) => apply mu_digest
  | |- mute draw => apply mu_draw
  | |- mute (match ?x with _ => _ end) => destruct x eqn:?
  end).
Lemma mu_encrypt ct mfl f : mute (encrypt_fragment C ct mfl f).
Proof.
  unfold encrypt_fragment. mu. intros c0 v.
  match goal with |- context [on_cipher ?g _] => pose proof (mu_on _ g c0 v) as E; cbv beta; rewrite E; destruct (on_cipher g c0) as [[?|?] ?]; reflexivity end.
Qed.
Lemma mu_fragments ct mfl l : mute (send_fragments C ct mfl l).
Proof. induction l as [|f l IH]; cbn [send_fragments]; mu; try exact IH; try apply mu_encrypt. Qed.
Lemma mu_send k : mute (send_content C k).
Proof. unfold send_content. mu; try apply mu_fragments. Qed.
Lemma mu_base k : mute (base_process k). Proof. unfold base_process. mu. Qed.
Lemma mu_initiate ck : mute (client_initiate C ck). Proof. unfold client_initiate. mu; apply mu_send. Qed.
Lemma mu_init : mute (initiate_connection C). Proof. unfold initiate_connection. mu; apply mu_initiate. Qed.
Lemma mu_process_hrr h e : mute (client_process_hrr C h e). Proof. unfold client_process_hrr. mu; apply mu_init. Qed.
Lemma mu_neg_hello s e : mute (client_negociate_hello C s e). Proof. unfold client_negociate_hello. mu. Qed.
Lemma mu_ee k : mute (process_wait_ee k).
Proof. unfold process_wait_ee, client_neg_mfl, client_neg_alpn, client_neg_heartbeat, client_neg_cct, client_neg_sct. mu; apply mu_base. Qed.
Lemma mu_cert b k : mute (process_wait_certificate C b k). Proof. unfold process_wait_certificate. mu; apply mu_base. Qed.
Lemma mu_cert_cr k : mute (process_wait_cert_cr C k).
Proof. unfold process_wait_cert_cr. mu; first [apply mu_base | apply mu_cert]. Qed.
Lemma mu_cv b h k : mute (process_wait_cv C b h k). Proof. unfold process_wait_cv. mu; apply mu_base. Qed.
Lemma mu_send_hrr b s l : mute (server_send_hrr C b s l). Proof. unfold server_send_hrr. mu; apply mu_send. Qed.
Lemma mu_send_cert : mute (server_send_certificate C). Proof. unfold server_send_certificate. mu; apply mu_send. Qed.
Lemma mu_fail a : mute (fail C a). Proof. unfold fail. mu; apply mu_send. Qed.
Lemma mu_neg e : mute (server_negociate C e).
Proof.
  unfold server_negociate, server_neg_versions, server_neg_groups, server_neg_sigalgs, server_neg_key_share, server_neg_cct,
    server_neg_sct, server_neg_mfl, server_neg_alpn, server_neg_heartbeat, server_neg_status. mu.
Qed.
Lemma mu_process_sh s e l : mute (client_process_sh C s e l).
Proof. unfold client_process_sh. mu; apply mu_neg_hello. Qed.
Lemma mu_sh f s h k : mute (process_wait_sh C f s h k).
Proof. unfold process_wait_sh. mu; first [apply mu_base | apply mu_process_hrr | apply mu_process_sh | apply mu_send]. Qed.
Lemma mu_ch f k : mute (process_wait_ch C f k).
Proof. unfold process_wait_ch, server_setup, server_send_hello. mu; first [apply mu_base | apply mu_neg | apply mu_send_hrr | apply mu_send_cert | apply mu_send]. Qed.
Lemma mu_cfin b h k : mute (process_client_finished C b h k).
Proof. unfold process_client_finished. mu; first [apply mu_base | apply mu_send]. Qed.
Lemma mu_sfin h k : mute (process_server_finished C h k).
Proof. unfold process_server_finished. mu; first [apply mu_base | apply mu_send]. Qed.
Lemma mu_process k : mute (process C k).
Proof.
  unfold process. mu; first [apply mu_base | apply mu_sh | apply mu_ee | apply mu_cert_cr | apply mu_cert | apply mu_cv | apply mu_cfin | apply mu_ch | apply mu_sfin].
Qed.
Lemma mu_handle ct d : mute (handle_content C ct d).
Proof. unfold handle_content. mu; apply mu_process. Qed.
End mutes.


Section receives.
Variable C : crypto.
Ltac mu := repeat (cbv zeta; lazymatch goal with
  | |- mute (bind get _) => apply mu_get; [reflexivity | intro]
  | |- mute (bind _ _) => apply mu_bind; [|intro]
  | |- mute (ret _) => apply mu_ret
  | |- mute (raise _) => apply mu_raise
  | |- mute (lift _) => apply mu_lift
  | |- mute (modify _) => apply mu_modify; reflexivity
  | |- mute (on_cipher _) => apply mu_on
  | |- mute (match ?x with _ => _ end) => destruct x eqn:?
  end).
Lemma mu_record : mute (read_next_record C). Proof. unfold read_next_record. mu. Qed.
Lemma mu_fill n : mute (fill_handshake n C).
Proof. induction n as [|n IH]; cbn [fill_handshake]; mu; first [apply mu_record | exact IH]. Qed.
Lemma mu_content : mute (read_next_content C).
Proof. unfold read_next_content. mu; first [apply mu_record | apply mu_fill]. Qed.
Lemma mu_one : mute (receive_one C).
Proof. unfold receive_one. mu; first [apply mu_content | apply mu_handle]. Qed.
Lemma mu_guarded m : mute m -> mute (guarded C m).
Proof.
  intros H c v. unfold guarded. rewrite (H c v). destruct (m c) as [[b|e] c1]; cbn [fst snd]; [reflexivity|].
  rewrite (mu_fail C _ c1 v). destruct (fail C _ c1) as [[?|?] c2]; reflexivity.
Qed.
Lemma mu_loop n : mute (receive_loop n C).
Proof. induction n as [|n IH]; cbn [receive_loop]; mu; first [apply mu_guarded; apply mu_one | exact IH]. Qed.
Lemma mu_receive d : mute (receive_data C d).
Proof. unfold receive_data. mu; try apply mu_loop; unfold rekey; mu. Qed.
End receives.
