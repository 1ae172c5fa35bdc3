(* What a connection does with a message does not depend on the input that
   waits behind it. *)
From Verif Require Import Base P_Base Iana Crypto Config Serial Ext Msg Hkdf Cipher Kex Sig Ocsp Transcript Conn S_Hist S_Conn P_Monad P_Frame P_Rec.

Definition blind {A} (m : M A) : Prop := forall c v, m (cset_in v c) = (fst (m c), cset_in v (snd (m c))).
Section blinds.
Variable C : crypto.
Lemma bl_ret A (a : A) : blind (ret a). Proof. intros c v. reflexivity. Qed.
Lemma bl_raise A e : blind (@raise A e). Proof. intros c v. reflexivity. Qed.
Lemma bl_lift A (r : res A) : blind (lift r). Proof. intros c v. reflexivity. Qed.
Lemma bl_modify f : (forall c v, f (cset_in v c) = cset_in v (f c)) -> blind (modify f).
Proof. intros H c v. unfold modify. rewrite H. reflexivity. Qed.
Lemma bl_bind A B (m : M A) (f : A -> M B) : blind m -> (forall a, blind (f a)) -> blind (bind m f).
Proof.
  intros H K c v. unfold bind. rewrite (H c v). destruct (m c) as [[a|e] c1]; cbn [fst snd]; [apply K | reflexivity].
Qed.
Lemma bl_get A (f : conn -> M A) : (forall c v, f (cset_in v c) = f c) -> (forall c, blind (f c)) -> blind (bind get f).
Proof. intros H K c v. rewrite !bind_get, H. apply K. Qed.
Lemma bl_tr A (f : transcript -> res A * transcript) : blind (on_tr f).
Proof. intros c v. unfold on_tr. change (c_tr (cset_in v c)) with (c_tr c). destruct (f (c_tr c)); reflexivity. Qed.
Lemma bl_method f : blind (tr_method f). Proof. apply bl_tr. Qed.
Lemma bl_set s : blind (set_state s). Proof. apply bl_modify. reflexivity. Qed.
Ltac bl0 := repeat (cbv zeta; lazymatch goal with
  | |- blind (bind get _) => apply bl_get; [reflexivity | intro]
  | |- blind (bind _ _) => apply bl_bind; [|intro]
  | |- blind (ret _) => apply bl_ret
  | |- blind (raise _) => apply bl_raise
  | |- blind (lift _) => apply bl_lift
  | |- blind (modify _) => apply bl_modify; reflexivity
  | |- blind (set_state _) => apply bl_set
  | |- blind (tr_method _) => apply bl_method
  | |- blind (on_tr _) => apply bl_tr
  | |- blind (match ?x with _ => _ end) => destruct x eqn:?
  end).
Lemma bl_upd f : blind (upd_nc f). Proof. unfold upd_nc. bl0. Qed.
Lemma bl_ask A (f : cs -> res A) : blind (ask_cipher f). Proof. unfold ask_cipher. bl0. Qed.
Lemma bl_on A (f : cs -> res A * cs) : blind (on_cipher f). Proof. unfold on_cipher. bl0. Qed.
Lemma bl_cipher s sd : blind (set_cipher s sd). Proof. unfold set_cipher. bl0. Qed.
Lemma bl_transcribe d sd ty : blind (transcribe d sd ty). Proof. unfold transcribe. bl0. Qed.
Lemma bl_digest : blind (digest C). Proof. unfold digest. bl0. Qed.
Lemma bl_draw : blind draw. Proof. unfold draw. bl0. Qed.
Ltac bl := repeat (cbv zeta; lazymatch goal with
  | |- blind (bind get _) => apply bl_get; [reflexivity | intro]
  | |- blind (bind _ _) => apply bl_bind; [|intro]
  | |- blind (ret _) => apply bl_ret
  | |- blind (raise _) => apply bl_raise
  | |- blind (lift _) => apply bl_lift
  | |- blind (modify _) => apply bl_modify; reflexivity
  | |- blind (set_state _) => apply bl_set
  | |- blind (tr_method _) => apply bl_method
  | |- blind (on_tr _) => apply bl_tr
  | |- blind (upd_nc _) => apply bl_upd
  | |- blind (ask_cipher _) => apply bl_ask
  | |- blind (on_cipher _) => apply bl_on
  | |- blind (set_cipher _ _) => apply bl_cipher
  | |- blind (transcribe _ _ _) => apply bl_transcribe
  | |- blind (digest _) => apply bl_digest
  | |- blind draw => apply bl_draw
  | |- blind (match ?x with _ => _ end) => destruct x eqn:?
  end).
Lemma bl_encrypt ct mfl f : blind (encrypt_fragment C ct mfl f).
Proof.
  unfold encrypt_fragment. bl. intros c0 v.
  match goal with |- context [on_cipher ?g _] => pose proof (bl_on _ g c0 v) as E; cbv beta; rewrite E; destruct (on_cipher g c0) as [[?|?] ?]; reflexivity end.
Qed.
Lemma bl_fragments ct mfl l : blind (send_fragments C ct mfl l).
Proof. induction l as [|f l IH]; cbn [send_fragments]; bl; try exact IH; try apply bl_encrypt. Qed.
Lemma bl_send k : blind (send_content C k).
Proof. unfold send_content. bl; try apply bl_fragments. Qed.
Lemma bl_base k : blind (base_process k). Proof. unfold base_process. bl. Qed.
Lemma bl_initiate ck : blind (client_initiate C ck). Proof. unfold client_initiate. bl; apply bl_send. Qed.
Lemma bl_init : blind (initiate_connection C). Proof. unfold initiate_connection. bl; apply bl_initiate. Qed.
Lemma bl_process_hrr h e : blind (client_process_hrr C h e). Proof. unfold client_process_hrr. bl; apply bl_init. Qed.
Lemma bl_neg_hello s e : blind (client_negociate_hello C s e). Proof. unfold client_negociate_hello. bl. Qed.
Lemma bl_ee k : blind (process_wait_ee k).
Proof. unfold process_wait_ee, client_neg_mfl, client_neg_alpn, client_neg_heartbeat, client_neg_cct, client_neg_sct. bl; apply bl_base. Qed.
Lemma bl_cert b k : blind (process_wait_certificate C b k). Proof. unfold process_wait_certificate. bl; apply bl_base. Qed.
Lemma bl_cert_cr k : blind (process_wait_cert_cr C k).
Proof. unfold process_wait_cert_cr. bl; first [apply bl_base | apply bl_cert]. Qed.
Lemma bl_cv b h k : blind (process_wait_cv C b h k). Proof. unfold process_wait_cv. bl; apply bl_base. Qed.
Lemma bl_send_hrr b s l : blind (server_send_hrr C b s l). Proof. unfold server_send_hrr. bl; apply bl_send. Qed.
Lemma bl_send_cert : blind (server_send_certificate C). Proof. unfold server_send_certificate. bl; apply bl_send. Qed.
Lemma bl_fail a : blind (fail C a). Proof. unfold fail. bl; apply bl_send. Qed.
Lemma bl_neg e : blind (server_negociate C e).
Proof.
  unfold server_negociate, server_neg_versions, server_neg_groups, server_neg_sigalgs, server_neg_key_share, server_neg_cct,
    server_neg_sct, server_neg_mfl, server_neg_alpn, server_neg_heartbeat, server_neg_status. bl.
Qed.
Lemma bl_process_sh s e l : blind (client_process_sh C s e l).
Proof. unfold client_process_sh. bl; apply bl_neg_hello. Qed.
Lemma bl_sh f s h k : blind (process_wait_sh C f s h k).
Proof. unfold process_wait_sh. bl; first [apply bl_base | apply bl_process_hrr | apply bl_process_sh | apply bl_send]. Qed.
Lemma bl_ch f k : blind (process_wait_ch C f k).
Proof. unfold process_wait_ch, server_setup, server_send_hello. bl; first [apply bl_base | apply bl_neg | apply bl_send_hrr | apply bl_send_cert | apply bl_send]. Qed.
Lemma bl_cfin b h k : blind (process_client_finished C b h k).
Proof. unfold process_client_finished. bl; first [apply bl_base | apply bl_send]. Qed.
Lemma bl_sfin h k : blind (process_server_finished C h k).
Proof. unfold process_server_finished. bl; first [apply bl_base | apply bl_send]. Qed.
Lemma bl_process k : blind (process C k).
Proof.
  unfold process. bl; first [apply bl_base | apply bl_sh | apply bl_ee | apply bl_cert_cr | apply bl_cert | apply bl_cv | apply bl_cfin | apply bl_ch | apply bl_sfin].
Qed.
Lemma bl_handle ct d : blind (handle_content C ct d).
Proof. unfold handle_content. bl; apply bl_process. Qed.
End blinds.

(* --- processing a message does not close the receiving end ------------- *)
Definition lis {A} (m : M A) : Prop := forall c, can_receive (c_state c) = true -> can_receive (c_state (snd (m c))) = true.
Section listens.
Variable C : crypto.
Lemma li_pure A (m : M A) : (forall c, c_state (snd (m c)) = c_state c) -> lis m.
Proof. intros H c K. rewrite H. exact K. Qed.
Lemma li_ret A (a : A) : lis (ret a). Proof. apply li_pure. reflexivity. Qed.
Lemma li_raise A e : lis (@raise A e). Proof. apply li_pure. reflexivity. Qed.
Lemma li_lift A (r : res A) : lis (lift r). Proof. apply li_pure. reflexivity. Qed.
Lemma li_modify f : (forall c, c_state (f c) = c_state c) -> lis (modify f).
Proof. intros H. apply li_pure. intro c. apply H. Qed.
Lemma li_bind A B (m : M A) (f : A -> M B) : lis m -> (forall a, lis (f a)) -> lis (bind m f).
Proof.
  intros H K c Z. unfold bind. specialize (H c Z). destruct (m c) as [[a|e] c1]; cbn [snd] in *; [apply K; exact H | exact H].
Qed.
Lemma li_get A (f : conn -> M A) : (forall c, lis (f c)) -> lis (bind get f).
Proof. intros K c Z. rewrite bind_get. apply K. exact Z. Qed.
Lemma li_tr A (f : transcript -> res A * transcript) : lis (on_tr f).
Proof. apply li_pure. intros c. unfold on_tr. destruct (f (c_tr c)); reflexivity. Qed.
Lemma li_method f : lis (tr_method f). Proof. apply li_tr. Qed.
Lemma li_set s : can_receive s = true -> lis (set_state s). Proof. intros H c _. exact H. Qed.
Ltac li0 := repeat (cbv zeta; lazymatch goal with
  | |- lis (bind get _) => apply li_get; intro
  | |- lis (bind _ _) => apply li_bind; [|intro]
  | |- lis (ret _) => apply li_ret
  | |- lis (raise _) => apply li_raise
  | |- lis (lift _) => apply li_lift
  | |- lis (modify _) => apply li_modify; reflexivity
  | |- lis (on_tr _) => apply li_tr
  | |- lis (match ?x with _ => _ end) => destruct x eqn:?
  end).
Lemma li_upd f : lis (upd_nc f). Proof. unfold upd_nc. li0. Qed.
Lemma li_ask A (f : cs -> res A) : lis (ask_cipher f). Proof. unfold ask_cipher. li0. Qed.
Lemma li_on A (f : cs -> res A * cs) : lis (on_cipher f). Proof. unfold on_cipher. li0. Qed.
Lemma li_cipher s sd : lis (set_cipher s sd). Proof. unfold set_cipher. li0. Qed.
Lemma li_transcribe d sd ty : lis (transcribe d sd ty). Proof. unfold transcribe. li0. Qed.
Lemma li_digest : lis (digest C). Proof. unfold digest. li0. Qed.
Lemma li_draw : lis draw. Proof. unfold draw. li0. Qed.
Ltac li := repeat (cbv zeta; lazymatch goal with
  | |- lis (bind get _) => apply li_get; intro
  | |- lis (bind _ _) => apply li_bind; [|intro]
  | |- lis (ret _) => apply li_ret
  | |- lis (raise _) => apply li_raise
  | |- lis (lift _) => apply li_lift
  | |- lis (modify _) => apply li_modify; reflexivity
  | |- lis (set_state _) => apply li_set; reflexivity
  | |- lis (tr_method _) => apply li_method
  | |- lis (on_tr _) => apply li_tr
  | |- lis (upd_nc _) => apply li_upd
  | |- lis (ask_cipher _) => apply li_ask
  | |- lis (on_cipher _) => apply li_on
  | |- lis (set_cipher _ _) => apply li_cipher
  | |- lis (transcribe _ _ _) => apply li_transcribe
  | |- lis (digest _) => apply li_digest
  | |- lis draw => apply li_draw
  | |- lis (match ?x with _ => _ end) => destruct x eqn:?
  end).
Lemma li_encrypt ct mfl f : lis (encrypt_fragment C ct mfl f).
Proof.
  unfold encrypt_fragment. li. intros c0 Z.
  match goal with |- context [on_cipher ?g _] => pose proof (li_on _ g c0 Z) as E; cbv beta; destruct (on_cipher g c0) as [[?|?] ?]; exact E end.
Qed.
Lemma li_fragments ct mfl l : lis (send_fragments C ct mfl l).
Proof. induction l as [|f l IH]; cbn [send_fragments]; li; try exact IH; try apply li_encrypt. Qed.
Lemma li_send k : lis (send_content C k).
Proof. unfold send_content. li; try apply li_fragments. Qed.
Lemma li_base k : lis (base_process k). Proof. unfold base_process. li. Qed.
Lemma li_initiate ck : lis (client_initiate C ck). Proof. unfold client_initiate. li; apply li_send. Qed.
Lemma li_init : lis (initiate_connection C). Proof. unfold initiate_connection. li; apply li_initiate. Qed.
Lemma li_process_hrr h e : lis (client_process_hrr C h e). Proof. unfold client_process_hrr. li; apply li_init. Qed.
Lemma li_neg_hello s e : lis (client_negociate_hello C s e). Proof. unfold client_negociate_hello. li. Qed.
Lemma li_ee k : lis (process_wait_ee k).
Proof. unfold process_wait_ee, client_neg_mfl, client_neg_alpn, client_neg_heartbeat, client_neg_cct, client_neg_sct. li; apply li_base. Qed.
Lemma li_cert b k : lis (process_wait_certificate C b k). Proof. unfold process_wait_certificate. li; apply li_base. Qed.
Lemma li_cert_cr k : lis (process_wait_cert_cr C k).
Proof. unfold process_wait_cert_cr. li; first [apply li_base | apply li_cert]. Qed.
Lemma li_cv b h k : lis (process_wait_cv C b h k). Proof. unfold process_wait_cv. li; apply li_base. Qed.
Lemma li_send_hrr b s l : lis (server_send_hrr C b s l). Proof. unfold server_send_hrr. li; apply li_send. Qed.
Lemma li_send_cert : lis (server_send_certificate C). Proof. unfold server_send_certificate. li; apply li_send. Qed.
Lemma li_fail a : lis (fail C a). Proof. unfold fail. li; apply li_send. Qed.
Lemma li_neg e : lis (server_negociate C e).
Proof.
  unfold server_negociate, server_neg_versions, server_neg_groups, server_neg_sigalgs, server_neg_key_share, server_neg_cct,
    server_neg_sct, server_neg_mfl, server_neg_alpn, server_neg_heartbeat, server_neg_status. li.
Qed.
Lemma li_process_sh s e l : lis (client_process_sh C s e l).
Proof. unfold client_process_sh. li; apply li_neg_hello. Qed.
Lemma li_sh f s h k : lis (process_wait_sh C f s h k).
Proof. unfold process_wait_sh. li; first [apply li_base | apply li_process_hrr | apply li_process_sh | apply li_send]. Qed.
Lemma li_ch f k : lis (process_wait_ch C f k).
Proof. unfold process_wait_ch, server_setup, server_send_hello. li; first [apply li_base | apply li_neg | apply li_send_hrr | apply li_send_cert | apply li_send]. Qed.
Lemma li_cfin b h k : lis (process_client_finished C b h k).
Proof. unfold process_client_finished. li; first [apply li_base | apply li_send]. Qed.
Lemma li_sfin h k : lis (process_server_finished C h k).
Proof. unfold process_server_finished. li; first [apply li_base | apply li_send]. Qed.
Lemma li_process k : lis (process C k).
Proof.
  unfold process. li; first [apply li_base | apply li_sh | apply li_ee | apply li_cert_cr | apply li_cert | apply li_cv | apply li_cfin | apply li_ch | apply li_sfin].
Qed.
Lemma li_handle ct d : lis (handle_content C ct d).
Proof. unfold handle_content. li; apply li_process. Qed.
End listens.
