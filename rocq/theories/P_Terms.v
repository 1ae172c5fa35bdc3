(* C75: what was said of the negotiation is not taken back. *)
From Verif Require Import Base P_Base Iana Crypto Config Serial Ext Msg Hkdf Cipher Kex Sig Ocsp Transcript Conn S_Hist S_Conn S_State S_Server S_Honest S_Terms P_Monad P_Frame P_Hist P_Send P_Wp P_State.

(* --- after the handshake -------------------------------------------------- *)
Section over.
Variable C : crypto.
Variable n0 : option nconfig.
Let I (c : conn) : Prop := over c /\ c_nc c = n0.
Lemma ov_send k c : I c -> I (snd (send_content C k c)).
Proof. unfold I, over. destruct (sending_content C k c) as [H _]. rewrite H. exact (fun K => K). Qed.
Lemma ov_state c s : I c -> match s with Connected | Closed _ _ | Failed => True | _ => False end -> I (cset_state s c).
Proof. intros [_ B] H. split; [exact H | exact B]. Qed.
Lemma ov_fail a c : I c -> I (snd (fail C a c)).
Proof.
  intro H. unfold fail. unfold bind.
  assert (H1 : I (snd ((match a with Some code => send_content C (KAlert FATAL code) | None => ret tt end) c))).
  { destruct a; [apply ov_send|]; exact H. }
  destruct ((match a with Some code => send_content C (KAlert FATAL code) | None => ret tt end) c) as [[?|?] c1]; [|exact H1].
  unfold set_state, modify; cbn [snd]. apply ov_state; [exact H1 | exact Logic.I].
Qed.
Lemma ov_base k c : I c -> wp (base_process k) c (fun _ c' => I c').
Proof. intro H. unfold base_process. wrun; try exact H. apply ov_state; [exact H | exact Logic.I]. Qed.
Lemma ov_handle ct d c : I c -> wp (handle_content C ct d) c (fun _ c' => I c').
Proof.
  intros H. unfold handle_content.
  assert (P : forall k c', I c' -> wp (process C k) c' (fun _ c' => I c')).
  { intros k c' H'. unfold process. wstep. pose proof H' as [Ho _]. unfold over in Ho.
    destruct (c_state c') as [ | | | | | | | | | | |r w|]; try contradiction; try (apply ov_base; exact H').
    - destruct k; try (apply ov_base; exact H'). exact H'.
    - destruct r; [|exact H']. destruct k; try (apply ov_base; exact H'). exact H'.
    - exact H'. }
  wrun; try exact H; try (apply P; exact H).
Qed.
Lemma ov_init c : I c -> I (snd (initiate_connection C c)).
Proof.
  intro H. unfold initiate_connection. rewrite bind_get. pose proof H as [Ho _]. unfold over in Ho.
  destruct (c_state c); try contradiction; exact H.
Qed.
Lemma ov_close_r c : I c -> I (snd (close_receiving_end C c)).
Proof.
  intro H. unfold close_receiving_end. rewrite bind_get. destruct (is_post_handshake c); cbn [negb]; [|apply ov_fail; exact H].
  destruct (c_state c); (apply ov_state; [exact H | exact Logic.I]).
Qed.
Lemma ov_close_s c : I c -> I (snd (close_sending_end C c)).
Proof.
  intro H. unfold close_sending_end. rewrite bind_get.
  assert (K : forall b, I b -> I (snd ((do c <- get; (if can_send (c_state c)
    then send_content C (KAlert WARNING CLOSE_NOTIFY) ;;
         modify (fun c => match c_state c with Closed r _ => cset_state (Closed r false) c | _ => c end)
    else ret tt)) b))).
  { intros b Hb. rewrite bind_get. destruct (can_send (c_state b)); [|exact Hb].
    pose proof (ov_send (KAlert WARNING CLOSE_NOTIFY) b Hb) as K. unfold bind.
    destruct (send_content C _ b) as [[?|?] b1]; [|exact K]. unfold modify; cbn [snd] in *.
    destruct (c_state b1) eqn:Sb; try exact K. apply ov_state; [exact K | exact Logic.I]. }
  unfold bind at 1. pose proof H as [Ho _]. unfold over in Ho. destruct (c_state c) eqn:Sa; try contradiction; unfold ret, set_state, modify;
    try (apply K; apply ov_state; [exact H | exact Logic.I]); apply K; exact H.
Qed.
Lemma ov_run ops c : mfl_good c -> I c -> I (run C ops c).
Proof.
  intros M H. apply (good_run C I I); try exact (conj M H); unfold I, over.
  - intros a b [E _]. rewrite E. exact (fun H => H).
  - intros a v; exact (fun H => H).
  - intros a v; exact (fun H => H).
  - intros a; exact (fun H => H).
  - intros code a _ _. apply ov_fail.
  - intros ct d a _ Ia. eapply wp_mono; [apply ov_handle; exact Ia|]. intros [|] c' K; exact K.
  - intros d a _ Ia. apply ov_send. exact Ia.
  - intros a _ Ia. exact (ov_init a Ia).
  - intros a _ Ia. apply ov_close_r. exact Ia.
  - intros a _ Ia. apply ov_close_s. exact Ia.
Qed.
End over.
Lemma terms_fixed C g c ops : reachable C g c -> over c -> over (run C ops c) /\ c_nc (run C ops c) = c_nc c.
Proof.
  intros R H. apply ov_run; [|split; [exact H | reflexivity]]. destruct R as (c0 & ops0 & Cr & ->). apply mfl_good_run. eapply created_mfl; exact Cr.
Qed.

(* --- what is known in each state ------------------------------------------ *)
Section known.
Variable C : crypto.
Variable K : state -> option nconfig -> Prop.
Let I (c : conn) : Prop := K (c_state c) (c_nc c).
Let Q : res unit -> conn -> Prop := fun _ c' => I c'.
Hypothesis K_end : forall s n s', K s n -> match s' with Closed _ _ | Failed => True | _ => False end -> K s' n.
Lemma kn_end c s' : I c -> match s' with Closed _ _ | Failed => True | _ => False end -> I (cset_state s' c).
Proof. intros H E. exact (K_end _ _ _ H E). Qed.
Lemma kn_send k c : I c -> I (snd (send_content C k c)).
Proof. destruct (sending_content C k c) as [H _]. unfold I. rewrite H. exact (fun K => K). Qed.
Lemma kn_fail a c : I c -> I (snd (fail C a c)).
Proof.
  intro H. unfold fail. unfold bind.
  assert (H1 : I (snd ((match a with Some code => send_content C (KAlert FATAL code) | None => ret tt end) c))).
  { destruct a; [apply kn_send|]; exact H. }
  destruct ((match a with Some code => send_content C (KAlert FATAL code) | None => ret tt end) c) as [[?|?] c1]; [|exact H1].
  unfold set_state, modify; cbn [snd]. apply kn_end; [exact H1 | exact Logic.I].
Qed.
Lemma kn_base k c : I c -> wp (base_process k) c Q.
Proof. intro H. unfold base_process, Q. wrun; try exact H. apply kn_end; [exact H | exact Logic.I]. Qed.
Lemma kn_close_r c : I c -> I (snd (close_receiving_end C c)).
Proof.
  intro H. unfold close_receiving_end. rewrite bind_get. destruct (is_post_handshake c); cbn [negb]; [|apply kn_fail; exact H].
  destruct (c_state c); (apply kn_end; [exact H | exact Logic.I]).
Qed.
Lemma kn_close_s c : I c -> I (snd (close_sending_end C c)).
Proof.
  intro H. unfold close_sending_end. rewrite bind_get.
  assert (L : forall b, I b -> I (snd ((do c <- get; (if can_send (c_state c)
    then send_content C (KAlert WARNING CLOSE_NOTIFY) ;;
         modify (fun c => match c_state c with Closed r _ => cset_state (Closed r false) c | _ => c end)
    else ret tt)) b))).
  { intros b Hb. rewrite bind_get. destruct (can_send (c_state b)); [|exact Hb].
    pose proof (kn_send (KAlert WARNING CLOSE_NOTIFY) b Hb) as L. unfold bind.
    destruct (send_content C _ b) as [[?|?] b1]; [|exact L]. unfold modify; cbn [snd] in *.
    destruct (c_state b1) eqn:Sb; try exact L. apply kn_end; [exact L | exact Logic.I]. }
  unfold bind at 1. destruct (c_state c) eqn:Sa; unfold ret, set_state, modify;
    try (apply L; apply kn_end; [exact H | exact Logic.I]); apply L; exact H.
Qed.
Hypothesis H_init : forall c, I c -> wp (initiate_connection C) c Q.
Hypothesis H_proc : forall k c, match c_state c with Connected | Closed _ _ | Failed => False | _ => True end -> I c -> wp (process C k) c Q.
Lemma kn_process k c : I c -> wp (process C k) c Q.
Proof.
  intro H. pose proof (H_proc k c) as P. unfold process in *. destruct (c_state c) eqn:E; try exact (P Logic.I H); clear P; wstep; rewrite E.
  - destruct k; try (apply kn_base; exact H). exact H.
  - destruct can_recv; [|exact H]. destruct k; try (apply kn_base; exact H). exact H.
  - exact H.
Qed.
Lemma kn_handle ct d c : I c -> wp (handle_content C ct d) c Q.
Proof. intros H. unfold handle_content. wrun; try exact H; try (apply kn_process; exact H). Qed.
Lemma kn_run ops c : mfl_good c -> I c -> I (run C ops c).
Proof.
  intros M H. apply (good_run C I I); try exact (conj M H).
  - intros a b [E _]. unfold I. rewrite E. exact (fun H => H).
  - intros a v; exact (fun H => H).
  - intros a v; exact (fun H => H).
  - intros a; exact (fun H => H).
  - intros code a _ _. apply kn_fail.
  - intros ct d a _ Ia. eapply wp_mono; [apply kn_handle; exact Ia|]. intros [|] c' L; exact L.
  - intros d a _ Ia. apply kn_send. exact Ia.
  - intros a _ Ia. exact (H_init a Ia).
  - intros a _ Ia. apply kn_close_r. exact Ia.
  - intros a _ Ia. apply kn_close_s. exact Ia.
Qed.
End known.

(* the client *)
Definition nnone {A} (o : option A) : bool := match o with Some _ => true | None => false end.
Definition cbase (n : nconfig) : Prop := nnone (n_suite n) = true /\ n_group n = None /\ n_want_ocsp n = None.
Definition cext (n : nconfig) : Prop :=
  nnone (n_alpn n) = true /\ nnone (n_send_hb n) = true /\ nnone (n_echo_hb n) = true /\ nnone (n_mfl n) = true /\ nnone (n_cct n) = true.
Definition cpeer0 (n : nconfig) : Prop := n_peer_cert n = None /\ n_peer_key n = None.
Definition cpeer1 (n : nconfig) : Prop :=
  (n_sct n = Some CT_X509 \/ n_peer_cert n = None) /\ (n_sct n = Some CT_RAW_PUBLIC_KEY \/ n_peer_key n = None).
Definition cpeer2 (n : nconfig) : Prop :=
  (n_sct n = Some CT_X509 /\ nnone (n_peer_cert n) = true /\ n_peer_key n = None) \/
  (n_sct n = Some CT_RAW_PUBLIC_KEY /\ n_peer_cert n = None /\ nnone (n_peer_key n) = true).
Definition KC (s : state) (o : option nconfig) : Prop :=
  match s with
  | ServerStart | ServerWaitClientHello _ | ServerWaitFinished _ => False
  | ClientStart _ | ClientWaitServerHello true _ _ => match o with Some n => cbase n /\ cpeer0 n | None => True end
  | ClientWaitServerHello false _ _ => match o with Some n => cbase n /\ cpeer0 n | None => False end
  | ClientWaitEncryptedExtensions => match o with Some n => cbase n /\ cpeer0 n | None => False end
  | ClientWaitCertCr | ClientWaitCertificate _ => match o with Some n => cbase n /\ cext n /\ cpeer1 n | None => False end
  | ClientWaitCertificateVerify _ _ => match o with Some n => cbase n /\ cext n /\ cpeer2 n | None => False end
  | ClientWaitFinished _ _ | Connected => match o with Some n => cbase n /\ cext n /\ cpeer2 n /\ nnone (n_sigalg n) = true | None => False end
  | Closed _ _ | Failed => match o with Some n => cbase n | None => True end
  end.
Lemma KC_end s n s' : KC s n -> match s' with Closed _ _ | Failed => True | _ => False end -> KC s' n.
Proof.
  intros H E. destruct s' as [ | | | | | | | | | | |r w|]; try contradiction;
    destruct s as [ |[|] ? ?| | | | | | | | | |? ?|]; cbn in *; try contradiction; destruct n; try contradiction; tauto.
Qed.
Section client.
Variable C : crypto.
Let I (c : conn) : Prop := KC (c_state c) (c_nc c).
Let Q : res unit -> conn -> Prop := fun _ c' => I c'.
Let base := kn_base KC KC_end.
Lemma kc_init c : I c -> wp (initiate_connection C) c Q.
Proof.
  intro H. unfold initiate_connection, Q. wstep. destruct (c_state c) eqn:S; wrun; try exact H.
  - unfold client_initiate. wrun; try exact H.
    apply wpb_send. intros [[]|e] oc0 t0 hs0 lg0 o0 _ _ _; [|exact H].
    wrun; try exact H. unfold I in *. rewrite S in H. cbn in *. destruct (c_nc c); exact H.
  - unfold I in H. rewrite S in H. destruct H.
Qed.
Lemma kc_sh a b d k c : c_state c = ClientWaitServerHello a b d -> I c -> wp (process_wait_sh C a b d k) c Q.
Proof.
  intros S H. unfold process_wait_sh.
  destruct k as [| |[]| |]; try (apply base; exact H);
    try (destruct a; [apply base; exact H | wrun; exact H]).
  wstep. wstep; [wstep; exact H|].
  assert (K : forall c1, c_state c1 = c_state c -> match c_nc c1 with Some n => cbase n /\ cpeer0 n | None => False end ->
     wp (if hrr then client_process_hrr C d exts else client_process_sh C b random exts) c1 Q).
  { intros c1 S1 N1. assert (H1 : I c1).
    { unfold I. rewrite S1, S. destruct (c_nc c1); [|contradiction]. destruct a; exact N1. }
    unfold Q. destruct hrr.
    - unfold client_process_hrr. wrun; try exact H1.
      apply kc_init. unfold I. cbn. destruct (c_nc c1); congruence.
    - unfold client_process_sh, client_negociate_hello. wrun; try exact H1.
      apply wpb_on_cipher; [intros _; exact H1|]. intros x r x' E1 E2. destruct r; [|exact H1]. wrun; try exact H1.
      apply wpb_on_cipher; [intros _; exact H1|]. intros y r y' E3 E4. destruct r; [|exact H1]. wrun. exact N1. }
  unfold Q in *. assert (N0 : cbase (nconfig_new (Some suite)) /\ cpeer0 (nconfig_new (Some suite))) by (repeat split).
  assert (L : forall c1, c_state c1 = c_state c -> a = true -> match c_nc c1 with Some n => cbase n /\ cpeer0 n | None => True end -> I c1).
  { intros c1 S1 Ea N1. unfold I. rewrite S1, S, Ea. exact N1. }
  wrun; try (apply L; [reflexivity | reflexivity | exact N0]).
  - apply wpb_send. intros [[]|e] oc0 t0 hs0 lg0 o0 _ _ _; [|apply L; [reflexivity | reflexivity | exact N0]]. apply K; [reflexivity | exact N0].
  - unfold I in H. rewrite S in H. apply (K c eq_refl H).
  - unfold I in H. rewrite S in H. apply (K c eq_refl H).
Qed.
Lemma kc_ee k c : c_state c = ClientWaitEncryptedExtensions -> I c -> wp (process_wait_ee k) c Q.
Proof.
  intros S H. unfold process_wait_ee. destruct k as [| |[]| |]; try (apply base; exact H).
  unfold client_neg_mfl, client_neg_alpn, client_neg_heartbeat, client_neg_cct, client_neg_sct, Q.
  unfold I in H. rewrite S in H. destruct (c_nc c) as [n|] eqn:N; [|contradiction].
  assert (U : forall B (Q : res B -> conn -> Prop) h (f : unit -> M B) c1 m, c_nc c1 = Some m ->
     wp (f tt) (cset_nc (Some (h m)) c1) Q -> wp (bind (upd_nc h) f) c1 Q).
  { intros B Q0 h f c1 m E W. apply wpb_upd_nc; [congruence|]. intros m' E'. rewrite E in E'. injection E' as <-. exact W. }
  assert (F : forall c1 m, c_state c1 = c_state c -> c_nc c1 = Some m -> cbase m /\ cpeer0 m -> I c1).
  { intros c1 m S1 E1 H1. unfold I. rewrite S1, S, E1. exact H1. }
  Ltac step3 U F N H :=
    repeat (first [lazymatch goal with |- wp (bind (upd_nc _) _) _ _ => eapply U; [first [exact N | reflexivity]|] end
                  | lazymatch goal with |- wp (upd_nc _) _ _ => apply wp_unret end | wstep]; cbv beta iota zeta).
  step3 U F N H; try (eapply F; [reflexivity | first [exact N | reflexivity] | exact H]).
  all: unfold I; cbn; unfold cext, cpeer1; cbn; destruct H as [H1 [H2 H3]]; repeat split; try apply H1; auto.
Qed.
Lemma kc_certificate m k c : c_state c = ClientWaitCertificate m -> I c -> wp (process_wait_certificate C m k) c Q.
Proof.
  intros S H. unfold process_wait_certificate. destruct k as [| |[]| |]; try (apply base; exact H).
  pose proof H as H0. unfold I in H0. rewrite S in H0.
  assert (L : forall c1, c_state c1 = c_state c -> match c_nc c1 with Some n => cbase n /\ cext n /\ cpeer1 n | None => False end -> I c1).
  { intros c1 S1 N1. unfold I. rewrite S1, S. exact N1. }
  unfold Q. wstep. cbv zeta. wstep; [wstep; exact H|]. destruct (c_nc c) as [n|] eqn:N; [|wstep; exact H]. wstep; [wstep; exact H|].
  destruct H0 as (H1 & H2 & H3 & H4).
  destruct (n_sct n) as [t|] eqn:T; [|wrun; exact H].
  wstep; [|wstep].
  - apply N.eqb_eq in B1. subst t. destruct entries as [|e l]; [wrun; exact H|].
    destruct H4 as [H4|H4]; [discriminate|].
    wstep. apply wpb_upd_nc; [congruence|]. intros n' E. rewrite N in E. injection E as <-.
    assert (A : cbase (nset_peer_cert n (Some (en_data e))) /\ cext (nset_peer_cert n (Some (en_data e))) /\ cpeer2 (nset_peer_cert n (Some (en_data e)))).
    { split; [exact H1|]. split; [exact H2|]. left. cbn. auto. }
    assert (A' : cpeer1 (nset_peer_cert n (Some (en_data e)))) by (split; cbn; auto).
    wrun; try (apply L; [reflexivity | cbn; tauto]); exact A.
  - apply N.eqb_eq in B2. subst t. destruct entries as [|e l]; [wrun; exact H|].
    destruct H3 as [H3|H3]; [discriminate|].
    wstep. apply wpb_upd_nc; [congruence|]. intros n' E. rewrite N in E. injection E as <-.
    assert (A : cbase (nset_peer_key n (Some (en_data e))) /\ cext (nset_peer_key n (Some (en_data e))) /\ cpeer2 (nset_peer_key n (Some (en_data e)))).
    { split; [exact H1|]. split; [exact H2|]. right. cbn. auto. }
    assert (A' : cpeer1 (nset_peer_key n (Some (en_data e)))) by (split; cbn; auto).
    wrun; try (apply L; [reflexivity | cbn; tauto]); exact A.
  - wrun. exact H.
Qed.
Lemma kc_cert_cr k c : c_state c = ClientWaitCertCr -> I c -> wp (process_wait_cert_cr C k) c Q.
Proof.
  intros S H. unfold process_wait_cert_cr. destruct k as [| |[]| |]; try (apply base; exact H).
  - unfold Q. wrun. unfold I in *. rewrite S in H. exact H.
  - wrun. apply kc_certificate; [reflexivity|]. unfold I in *. rewrite S in H. exact H.
Qed.
Lemma kc_cv m h k c : c_state c = ClientWaitCertificateVerify m h -> I c -> wp (process_wait_cv C m h k) c Q.
Proof.
  intros S H. unfold process_wait_cv. destruct k as [| |[]| |]; try (apply base; exact H).
  pose proof H as H0. unfold I in H0. rewrite S in H0.
  unfold Q. wstep. wstep; [wstep; exact H|]. destruct (c_nc c) as [n|] eqn:N; [|contradiction].
  apply wpb_upd_nc; [congruence|]. intros n' E. rewrite N in E. injection E as <-.
  assert (A : I (cset_nc (Some (nset_sigalg n (Some alg))) c)) by (unfold I; cbn; rewrite S; exact H0).
  wrun; try exact A; (unfold I; cbn; destruct H0 as (X1 & X2 & X3); split; [exact X1|]; split; [exact X2|]; split; [exact X3 | reflexivity]).
Qed.
Lemma kc_finished m h k c : c_state c = ClientWaitFinished m h -> I c -> wp (process_client_finished C m h k) c Q.
Proof.
  intros S H. unfold process_client_finished. destruct k as [| |[]| |]; try (apply base; exact H).
  unfold Q. wrun; try exact H. apply wpb_send. intros [[]|e] oc0 t0 hs0 lg0 o0 _ _ _; [|exact H]. wrun; try exact H.
  apply wpb_on_cipher; [intros _; exact H|]. intros y r y' _ _. destruct r; [|exact H]. wrun.
  unfold I in *. rewrite S in H. exact H.
Qed.
Lemma kc_run ops c : mfl_good c -> I c -> I (run C ops c).
Proof.
  apply (kn_run C KC KC_end); [exact kc_init|]. intros k c1 E H. change (I c1) in H. unfold process. wstep.
  destruct (c_state c1) eqn:S; try contradiction.
  - apply base. exact H.
  - apply kc_sh; assumption.
  - apply kc_ee; assumption.
  - apply kc_cert_cr; assumption.
  - apply kc_certificate; assumption.
  - apply kc_cv; assumption.
  - apply kc_finished; assumption.
  - unfold I in H. rewrite S in H. destruct H.
  - unfold I in H. rewrite S in H. destruct H.
  - unfold I in H. rewrite S in H. destruct H.
Qed.
End client.

(* the server *)
Definition sbase (n : nconfig) : Prop := n_sigalg n = None /\ n_peer_cert n = None /\ n_peer_key n = None.
Definition sfull (n : nconfig) : Prop :=
  nnone (n_group n) = true /\ nnone (n_sct n) = true /\ nnone (n_mfl n) = true /\ nnone (n_alpn n) = true /\
  nnone (n_send_hb n) = true /\ nnone (n_echo_hb n) = true /\ nnone (n_want_ocsp n) = true.
Definition KS (s : state) (o : option nconfig) : Prop :=
  match s with
  | ServerStart | ServerWaitClientHello true | Closed _ _ | Failed => match o with Some n => sbase n | None => True end
  | ServerWaitClientHello false => match o with Some n => sbase n /\ nnone (n_suite n) = true | None => False end
  | ServerWaitFinished _ | Connected => match o with Some n => sbase n /\ nnone (n_suite n) = true /\ sfull n | None => False end
  | _ => False
  end.
Lemma KS_end s n s' : KS s n -> match s' with Closed _ _ | Failed => True | _ => False end -> KS s' n.
Proof.
  intros H E. destruct s' as [ | | | | | | | | | | |r w|]; try contradiction;
    destruct s as [ | | | | | | | |[|]| | |? ?|]; cbn in *; try contradiction; destruct n; try contradiction; tauto.
Qed.
Section server.
Variable C : crypto.
Let I (c : conn) : Prop := KS (c_state c) (c_nc c).
Let Q : res unit -> conn -> Prop := fun _ c' => I c'.
Let base := kn_base KS KS_end.
Lemma ks_init c : I c -> wp (initiate_connection C) c Q.
Proof.
  intro H. unfold initiate_connection, Q. wstep. destruct (c_state c) eqn:S; wrun; try exact H.
  - unfold I in H. rewrite S in H. destruct H.
  - unfold I in H. rewrite S in H. exact H.
Qed.
Definition negN {A} (full : A -> bool) (c : conn) (r : res A) (c' : conn) : Prop :=
  c_state c' = c_state c /\ exists n', c_nc c' = Some n' /\ sbase n' /\ nnone (n_suite n') = true /\
    match r with Ok a => full a = true -> sfull n' | Err _ => True end.
Lemma ks_negociate exts c n : c_nc c = Some n -> sbase n -> nnone (n_suite n) = true ->
  wp (server_negociate C exts) c (negN (fun x => nnone (snd x)) c).
Proof.
  intros N H1 H2.
  assert (U : forall B (Q : res B -> conn -> Prop) h (f : unit -> M B) c1 m, c_nc c1 = Some m ->
     wp (f tt) (cset_nc (Some (h m)) c1) Q -> wp (bind (upd_nc h) f) c1 Q).
  { intros B Q0 h f c1 m E W. apply wpb_upd_nc; [congruence|]. intros m' E'. rewrite E in E'. injection E' as <-. exact W. }
  unfold server_negociate, server_neg_versions, server_neg_groups, server_neg_sigalgs, server_neg_key_share.
  Ltac go U N H1 H2 :=
    repeat (first [lazymatch goal with |- wp (bind (upd_nc _) _) _ _ => eapply U; [first [exact N | reflexivity]|] end | wstep]; cbv beta iota zeta);
    try (split; [reflexivity|]; eexists; split; [first [exact N | reflexivity]|]; split; [exact H1|]; split; [exact H2|]; first [exact Logic.I | discriminate]).
  go U N H1 H2.
  all: unfold server_neg_cct, server_neg_sct, server_neg_mfl, server_neg_alpn, server_neg_heartbeat, server_neg_status.
  all: go U N H1 H2.
  all: split; [reflexivity|]; eexists; split; [reflexivity|]; split; [exact H1|]; split; [exact H2|]; intros _; repeat split.
Qed.
Lemma ks_ch a k c : c_state c = ServerWaitClientHello a -> I c -> wp (process_wait_ch C a k) c Q.
Proof.
  intros S H. unfold process_wait_ch. destruct k as [| |[]| |]; try (apply base; exact H).
  wstep.
  assert (St : wp (if negb a then match first_common (g_suites (c_config c)) suites with
       | None => raise (XAlert HANDSHAKE_FAILURE)
       | Some _ => if match c_cunique c with Some u => beqb random u | None => false end then ret tt else raise (XAlert ILLEGAL_PARAMETER)
       end else server_setup random suites) c
     (fun r c' => c_state c' = c_state c /\ I c' /\ (r = Ok tt -> exists n, c_nc c' = Some n /\ sbase n /\ nnone (n_suite n) = true))).
  { destruct a; cbn [negb].
    - unfold server_setup.
      assert (L : forall c1 n, c_state c1 = c_state c -> c_nc c1 = Some n -> sbase n -> I c1).
      { intros c1 n S1 E1 H1. unfold I. rewrite S1, S, E1. exact H1. }
      assert (U : forall B (Q : res B -> conn -> Prop) h (f : unit -> M B) c1 m, c_nc c1 = Some m ->
         wp (f tt) (cset_nc (Some (h m)) c1) Q -> wp (bind (upd_nc h) f) c1 Q).
      { intros B Q0 h f c1 m E W. apply wpb_upd_nc; [congruence|]. intros m' E'. rewrite E in E'. injection E' as <-. exact W. }
      repeat (first [lazymatch goal with |- wp (bind (upd_nc _) _) _ _ => eapply U; [reflexivity|] end | wstep]; cbv beta iota zeta);
        (split; [reflexivity|]; split; [eapply L; [reflexivity | reflexivity | repeat split] | intro E; try discriminate E]).
      eexists; split; [reflexivity | repeat split].
    - unfold I in H. rewrite S in H. cbn in H. destruct (c_nc c) as [n|] eqn:N; [|contradiction].
      wrun; (split; [reflexivity|]; split; [unfold I; rewrite S, N; exact H | intro E; try discriminate E; exists n; tauto]). }
  apply wpb_mono with (1 := St). clear St. intros [[]|e] c1 (S1 & I1 & N1); [|exact I1]. destruct (N1 eq_refl) as (n1 & N2 & N3 & N4).
  apply wpb_mono with (1 := ks_negociate exts c1 n1 N2 N3 N4). intros r c2 (S2 & n2 & N5 & N6 & N7 & N8).
  assert (L : forall c', c_state c' = c_state c -> c_nc c' = Some n2 -> I c').
  { intros c' Sc Nc. unfold I. rewrite Sc, S, Nc. destruct a; [exact N6 | split; assumption]. }
  assert (Sx : c_state c2 = c_state c) by congruence.
  destruct r as [[[cl en] key]|e]; [|apply L; assumption].
  assert (KR : preorder (fun x y => c_state y = c_state x /\ c_nc y = c_nc x)).
  { split; [auto|]. intros x y z [A1 A2] [B1 B2]. split; congruence. }
  assert (KRs : forall k, rel (fun x y => c_state y = c_state x /\ c_nc y = c_nc x) (send_content C k)).
  { intros k x. destruct (sending_content C k x) as [E _]. rewrite E. split; reflexivity. }
  destruct key as [key|].
  - cbn in N8. specialize (N8 eq_refl).
    apply (wpb_rel _ _ Q (fun x y => c_state y = c_state x /\ c_nc y = c_nc x)).
    { unfold server_send_hello. reli KR; try apply KRs; apply (rel_on_cipher _ KR); intros; split; reflexivity. }
    intros [[]|e] c3 [S3 N9] _; [|apply L; congruence]. wstep.
    apply (wpb_rel _ _ Q (fun x y => c_state y = c_state x /\ c_nc y = c_nc x)).
    { reli KR. apply KRs. }
    intros [[]|e] c4 [S4 N10] _; [|apply L; congruence].
    apply (wpb_rel _ _ Q (fun x y => c_state y = c_state x /\ c_nc y = c_nc x)).
    { unfold server_send_certificate. reli KR; apply KRs. }
    intros [[]|e] c5 [S5 N11] _; [|apply L; congruence].
    unfold Q. wrun; try (apply L; congruence).
    apply (wpb_rel _ _ Q (fun x y => c_state y = c_state x /\ c_nc y = c_nc x)); [apply KRs|].
    intros [[]|e] c6 [S6 N12] _; [|apply L; congruence].
    unfold Q. wrun; try (apply L; congruence).
    unfold I. cbn. replace (c_nc c6) with (Some n2) by congruence. tauto.
  - unfold server_send_hrr, Q. wstep; [wstep; apply L; congruence|]. wstep.
    assert (L2 : forall c', c_state c' = ServerWaitClientHello false -> c_nc c' = Some n2 -> I c').
    { intros c' Sc Nc. unfold I. rewrite Sc, Nc. split; assumption. }
    wrun; try (apply L2; [reflexivity | exact N5]).
    all: repeat (apply wpb_send; intros [[]|?e] ?oc ?t ?hs ?lg ?o _ _ _; [|apply L2; [reflexivity | exact N5]]; wrun).
    all: apply L2; [reflexivity | exact N5].
Qed.
Lemma ks_finished h k c : c_state c = ServerWaitFinished h -> I c -> wp (process_server_finished C h k) c Q.
Proof.
  intros S H. unfold process_server_finished. destruct k as [| |[]| |]; try (apply base; exact H).
  unfold Q. wrun; try exact H.
  apply wpb_on_cipher; [intros _; exact H|]. intros y r y' _ _. destruct r; [|exact H]. wrun.
  unfold I in *. rewrite S in H. exact H.
Qed.
Lemma ks_run ops c : mfl_good c -> I c -> I (run C ops c).
Proof.
  apply (kn_run C KS KS_end); [exact ks_init|]. intros k c1 E H. change (I c1) in H. unfold process. wstep.
  destruct (c_state c1) eqn:S; try contradiction; try (unfold I in H; rewrite S in H; destruct H).
  - apply base. exact H.
  - apply ks_ch; assumption.
  - apply ks_finished; assumption.
Qed.
End server.
