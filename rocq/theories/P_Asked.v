(* A client that was asked for a certificate. *)
From Verif Require Import Base P_Base Iana Crypto Config Serial Ext Msg Hkdf Cipher Kex Sig Ocsp Transcript Conn S_Hist S_Conn S_State S_Utils S_Keys S_Auth P_Monad P_Frame P_Hist P_Send P_Wp P_State P_Client P_Client2 S_Asked.

Section asked.
Variable C : crypto.
Let I (c : conn) : Prop := asked (c_state c) = true.
Let Q : res unit -> conn -> Prop := fun _ c' => I c'.
Lemma a_same c c' : c_state c' = c_state c -> I c -> I c'.
Proof. unfold I. intros ->. exact (fun H => H). Qed.
Lemma a_send k c : I c -> I (snd (send_content C k c)).
Proof. apply a_same. apply samest_send. Qed.
Lemma a_fail a c : I c -> I (snd (fail C a c)).
Proof.
  intro H. unfold fail. unfold bind.
  assert (H1 : I (snd ((match a with Some code => send_content C (KAlert FATAL code) | None => ret tt end) c))).
  { destruct a; [apply a_send|]; exact H. }
  destruct ((match a with Some code => send_content C (KAlert FATAL code) | None => ret tt end) c) as [[?|?] c1]; [reflexivity | exact H1].
Qed.
Lemma a_base k c : I c -> wp (base_process k) c Q.
Proof. intro H. unfold base_process, Q. wrun; try exact H; reflexivity. Qed.
Lemma a_initiate c : I c -> wp (initiate_connection C) c Q.
Proof.
  intro H. unfold initiate_connection, Q. wstep. destruct (c_state c) eqn:S; try (exfalso; unfold I in H; rewrite S in H; discriminate H); wrun; exact H.
Qed.
Lemma a_process k c : I c -> wp (process C k) c Q.
Proof.
  intros H. unfold process. wstep. destruct (c_state c) eqn:S; try (exfalso; unfold I in H; rewrite S in H; discriminate H).
  - unfold process_wait_certificate. destruct must; [|exfalso; unfold I in H; rewrite S in H; discriminate H].
    destruct k as [| |[]| |]; try (apply a_base; exact H). wrun; try exact H; reflexivity.
  - unfold process_wait_cv. destruct must; [|exfalso; unfold I in H; rewrite S in H; discriminate H].
    destruct k as [| |[]| |]; try (apply a_base; exact H). wrun; try exact H; reflexivity.
  - unfold process_client_finished. destruct must; [|exfalso; unfold I in H; rewrite S in H; discriminate H].
    destruct k as [| |[]| |]; try (apply a_base; exact H). wrun; exact H.
  - destruct can_recv; [|exact H]. destruct k; try (apply a_base; exact H). exact H.
  - exact H.
Qed.
Lemma a_handle ct d c : I c -> wp (handle_content C ct d) c Q.
Proof. intros H. unfold handle_content. wrun; try exact H; try (apply a_process; exact H). Qed.
Lemma a_close_r c : I c -> I (snd (close_receiving_end C c)).
Proof.
  intro Ia. unfold close_receiving_end. rewrite bind_get. destruct (is_post_handshake c) eqn:E; cbn [negb]; [|apply a_fail; exact Ia].
  destruct (c_state c) eqn:Sa; try reflexivity; exfalso; unfold I in Ia; rewrite Sa in Ia; discriminate Ia.
Qed.
Lemma a_close_s c : I c -> I (snd (close_sending_end C c)).
Proof.
  intro Ia. unfold close_sending_end. rewrite bind_get.
  assert (K : forall b, I b -> I (snd ((do c <- get; (if can_send (c_state c)
    then send_content C (KAlert WARNING CLOSE_NOTIFY) ;;
         modify (fun c => match c_state c with Closed r _ => cset_state (Closed r false) c | _ => c end)
    else ret tt)) b))).
  { intros b Hb. rewrite bind_get. destruct (can_send (c_state b)); [|exact Hb].
    pose proof (a_send (KAlert WARNING CLOSE_NOTIFY) b Hb) as K. unfold bind.
    destruct (send_content C _ b) as [[?|?] b1]; [|exact K]. unfold modify; cbn [snd] in *.
    destruct (c_state b1) eqn:Sb; try exact K. reflexivity. }
  unfold bind at 1. destruct (c_state c) eqn:Sa; unfold ret, set_state, modify;
    try (apply K; reflexivity); apply K; exact Ia.
Qed.
Lemma asked_good ops c : mfl_good c -> I c -> mfl_good (run C ops c) /\ I (run C ops c).
Proof.
  intros W H. apply (good_run C I I); try (intros; assumption).
  - intros a b [E _]. unfold I. rewrite E. exact (fun H => H).
  - intros code a _ _. apply a_fail.
  - intros ct d a Wa Ia. eapply wp_mono; [apply a_handle; assumption|]. intros [|] c' K; exact K.
  - intros d a _ Ia. apply a_send. exact Ia.
  - intros a _ Ia. exact (a_initiate a Ia).
  - intros a _ Ia. apply a_close_r. exact Ia.
  - intros a _ Ia. apply a_close_s. exact Ia.
  - exact (conj W H).
Qed.
End asked.
Lemma asked_stays C g c ops : reachable C g c -> asked (c_state c) = true -> asked (c_state (run C ops c)) = true.
Proof.
  intros (c0 & ops0 & K & ->) H. apply asked_good; [|exact H]. apply mfl_good_run. eapply created_mfl. exact K.
Qed.
Lemma asked_enters C c ctx exts : c_state c = ClientWaitCertCr ->
  process C (KHandshake (HCertReq ctx exts)) c = (Ok tt, cset_state (ClientWaitCertificate true) c).
Proof. intro S. unfold process. rewrite bind_get, S. reflexivity. Qed.
(* nothing is sent when the Finished comes *)
Lemma asked_finished C c h v : c_state c = ClientWaitFinished true h ->
  (exists e, fst (process C (KHandshake (HFinished v)) c) = Err e) /\ snd (process C (KHandshake (HFinished v)) c) = c.
Proof.
  intro S. unfold process. rewrite bind_get, S. unfold process_client_finished, ask_cipher, digest, lift, raise, get, bind.
  destruct (c_cipher c) as [x|]; [|split; [eexists; reflexivity | reflexivity]].
  destruct (on_value_error _ _) as [?|?]; [|split; [eexists; reflexivity | reflexivity]].
  destruct (tr_digest C (c_tr c)); split; (eexists; reflexivity) || reflexivity.
Qed.
Lemma hello_no_request n : ~ In TCR (hello_word n).
Proof.
  unfold hello_word. intros [H|H]; [discriminate H|]. induction n as [|n IH]; [exact H|]. cbn in H. destruct H as [H|[H|H]]; try discriminate H. exact (IH H).
Qed.
Lemma connected_unasked C g c : aead_sized C -> hmac_sized C -> hash_sized C -> g_side g = Client -> reachable C g c -> c_state c = Connected ->
  exists before sd fd after, c_hs c = before ++ [SFin sd; CFin fd] ++ after /\ forall m, In m before -> token_of m <> TCR.
Proof.
  intros As Hs Hh Hg R S. destruct (client_connected C g c As Hs Hh Hg R S)
    as (hello & sh & ee & cd & vd & sd & fd & junk & n & suite & h & hc & group & shared & key & alg & W & Rt & Eh & _).
  exists (hello ++ [(Server, SERVER_HELLO, sh); EE ee; Cert cd; CV vd]), sd, fd, junk.
  split; [rewrite Eh, <- app_assoc; reflexivity|]. intros m I. apply in_app_or in I as [I|I].
  - intro T. apply (hello_no_request n). rewrite <- W, <- T. apply in_map. exact I.
  - destruct I as [<-|[<-|[<-|[<-|[]]]]]; try discriminate.
    change (token_of (Server, SERVER_HELLO, sh)) with (if is_retry (Server, SERVER_HELLO, sh) then THRR else TSH). destruct (is_retry _); discriminate.
Qed.
