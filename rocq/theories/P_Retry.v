(* A server asks for a retry at most once. *)
From Verif Require Import Base P_Base Iana Crypto Config Serial Ext Msg Hkdf Cipher Kex Sig Ocsp Transcript Conn
  S_Hist S_Conn S_State S_Send S_Nonce S_Alert S_Utils S_Keys S_Auth S_Server
  P_Monad P_Frame P_Hist P_Send P_Wp P_State P_Speak P_Alert P_Tr P_Auth.

Definition ours (s : state) : bool :=
  match s with
  | ServerStart | ServerWaitClientHello _ | ServerWaitFinished _ | Connected | Closed _ _ | Failed => true
  | _ => false
  end.
Definition virgin (s : state) : bool := match s with ServerStart | ServerWaitClientHello true => true | _ => false end.
Definition frugal (c : conn) : Prop :=
  own_random c /\ g_side (c_config c) = Server /\ ours (c_state c) = true /\
  (sent_retries (c_hs c) <= if virgin (c_state c) then 0 else 1)%nat.
Lemma retries_app a m : sent_retries (a ++ [m]) = (sent_retries a + (if side_eqb (m_side m) Server && is_retry m then 1 else 0))%nat.
Proof.
  unfold sent_retries. rewrite filter_app, app_length. cbn [filter]. destruct (side_eqb _ _ && _); reflexivity.
Qed.
Lemma frugal_same c c' : c_sunique c' = c_sunique c -> g_side (c_config c') = g_side (c_config c) -> c_state c' = c_state c ->
  sent_retries (c_hs c') = sent_retries (c_hs c) -> frugal c -> frugal c'.
Proof. unfold frugal, own_random. intros -> -> -> ->. exact (fun H => H). Qed.
Lemma frugal_go c s : ours s = true -> (virgin s = true -> virgin (c_state c) = true) -> frugal c -> frugal (cset_state s c).
Proof.
  intros O V (A & B & D & E). split; [exact A|]. split; [exact B|]. split; [exact O|]. cbn [c_hs c_state cset_state].
  destruct (virgin s), (virgin (c_state c)); try exact E; try (clear - E; lia). specialize (V eq_refl). discriminate V.
Qed.
(* sending anything but a ServerHello *)
Lemma said_frugal C k c r t hs : said C k c r t hs ->
  (forall random sid suite exts hrr, k <> KHandshake (HServerHello hrr random sid suite exts)) ->
  sent_retries hs = sent_retries (c_hs c).
Proof.
  intros S N. destruct k; try (destruct S as [_ ->]; reflexivity).
  destruct S as [(_ & _ & ->) | (ty & data & Mt & _ & [(_ & ->) | (e & _ & -> & _)])]; try reflexivity.
  rewrite retries_app. cbn [m_side m_type fst snd]. rewrite (is_retry_type (_, ty, data)).
  - rewrite andb_false_r. lia.
  - cbn. intros ->. destruct h; try discriminate Mt. eapply N. reflexivity.
Qed.
Lemma said_hello C c u sid suite exts r t hs : u <> retry_random -> blen u = 32 ->
  said C (KHandshake (HServerHello false u sid suite exts)) c r t hs -> sent_retries hs = sent_retries (c_hs c).
Proof.
  intros N L S. destruct S as [(_ & _ & ->) | (ty & data & Mt & Es & [(_ & ->) | (e & _ & -> & _)])]; try reflexivity.
  injection Mt; intros <-. rewrite retries_app. unfold is_retry. cbn [m_data snd].
  pose proof (ser_sh_random _ _ _ _ _ _ _ L Es) as E. unfold is_retry in E. cbn [m_data snd m_type fst] in E.
  replace (m_type _ =? 2) with true by reflexivity. change (SERVER_HELLO =? 2) with true in E. cbn [andb] in E |- *. rewrite E.
  destruct (beqb u retry_random) eqn:B; [apply beqb_eq in B; contradiction|]. rewrite ?andb_false_r. lia.
Qed.
Lemma said_one C k c r t hs : said C k c r t hs -> (sent_retries hs <= sent_retries (c_hs c) + 1)%nat.
Proof.
  intros S. destruct k; try (destruct S as [_ ->]; lia).
  destruct S as [(_ & _ & ->) | (ty & data & Mt & _ & [(_ & ->) | (e & _ & -> & _)])]; try lia.
  rewrite retries_app. destruct (_ && _); lia.
Qed.

Section retry.
Variable C : crypto.
Let Q : res unit -> conn -> Prop := fun _ c' => frugal c'.
Lemma fr_send k c : (forall random sid suite exts hrr, k <> KHandshake (HServerHello hrr random sid suite exts)) ->
  frugal c -> forall r oc t hs lg o, said C k c r t hs -> frugal (after_send c oc t hs lg o).
Proof. intros N F r oc t hs lg o S. apply (frugal_same c); try reflexivity; [|exact F]. cbn. exact (said_frugal C k c r t hs S N). Qed.
Lemma fr_base k c : frugal c -> wp (base_process k) c Q.
Proof. intro F. apply wp_base; unfold Q; intros; try exact F. apply frugal_go; [reflexivity | discriminate | exact F]. Qed.
Lemma fr_setup random suites c : frugal c -> wp (server_setup random suites) c (fun _ c' => frugal c' /\ c_state c' = c_state c).
Proof.
  intro F. unfold server_setup. wrun; (split; [exact F | reflexivity]).
Qed.
Lemma fr_hello first sid clear enc shared c : frugal c -> wp (server_send_hello C first sid clear enc shared) c Q.
Proof.
  intro F. unfold server_send_hello, Q. apply wpb_on_cipher; [intro; exact F|]. intros x r x' _ _. destruct r; [|exact F]. wrun; try exact F.
  apply wpb_send. intros r oc t hs lg o _ Sd _.
  assert (F1 : frugal (after_send (cset_cipher (Some x') c) oc t hs lg o)).
  { apply (frugal_same c); try reflexivity; [|exact F]. pose proof F as ((v & Eu & Lu & Nu) & _).
    assert (E : c_sunique (cset_cipher (Some x') c) = c_sunique c) by reflexivity.
    match goal with B : c_sunique (cset_cipher (Some x') c) = Some _ |- _ => rewrite E, Eu in B; injection B; intros <- end.
    exact (said_hello _ _ _ _ _ _ _ _ _ Nu Lu Sd). }
  clear Sd. revert F1. generalize (after_send (cset_cipher (Some x') c) oc t hs lg o). intros c1 F1. destruct r; [|exact F1].
  assert (Fin : forall c2, frugal c2 -> wp (do h <- digest C;
     on_cipher (derive_handshake_secrets C shared h) ;; send_content C (KHandshake (HEncExt (ext_dict enc)))) c2 (fun _ c' => frugal c')).
  { clear. intros c F. wrun; try exact F. apply wpb_on_cipher; [intro; exact F|]. intros y r y' _ _. destruct r; [|exact F]. wstep.
    apply wpb_send. intros r oc t hs lg o _ Sd _. eapply fr_send in Sd; [|discriminate|exact F]. destruct r; [wstep|]; exact Sd. }
  destruct first; [|wstep; apply Fin; exact F1].
  apply wpb_send. intros r oc0 t0 hs0 lg0 o0 _ Sd _. eapply fr_send in Sd; [|discriminate|exact F1]. destruct r; [|exact Sd]. apply Fin. exact Sd.
Qed.
Lemma fr_hrr first sid clear c : c_state c = ServerWaitClientHello first -> frugal c -> wp (server_send_hrr C first sid clear) c Q.
Proof.
  intros S F. unfold server_send_hrr, Q. destruct first; cbn [negb]; [|exact F].
  assert (F0 : frugal (cset_state (ServerWaitClientHello false) c)) by (apply frugal_go; [reflexivity | discriminate | exact F]).
  wrun; try exact F0.
  apply wpb_send. intros r oc t1 hs1 lg1 o1 _ Sd _.
  match goal with |- match r with Ok _ => wp _ ?c1 _ | Err _ => _ end => assert (F1 : frugal c1) end.
  { destruct F as (F1 & F2 & F3 & F4). apply said_one in Sd. rewrite S in F4. cbn [virgin] in F4. split; [exact F1|]. split; [exact F2|]. split; [reflexivity|]. cbn [virgin c_state after_send cset_out cset_log cset_hs cset_tr cset_cipher cset_state cset_config c_hs] in *. lia. }
  destruct r; [|exact F1]. clear - F1. wstep. apply wpb_send. intros r oc0 t0 hs0 lg0 o0 _ Sd _. eapply fr_send in Sd; [|discriminate|exact F1].
  destruct r; [wstep|]; exact Sd.
Qed.
Lemma fr_cert c : frugal c -> wp (server_send_certificate C) c Q.
Proof.
  intro F. unfold server_send_certificate, Q. wrun; try exact F. apply wpb_send. intros r oc t hs lg o _ Sd _. eapply fr_send in Sd; [|discriminate|exact F].
  destruct r; [|exact Sd]. revert Sd. generalize (after_send c oc t hs lg o). clear. intros c F. wrun; try exact F.
  apply wpb_send. intros r oc t hs lg o _ Sd _. eapply fr_send in Sd; [|discriminate|exact F]. destruct r; [wstep|]; exact Sd.
Qed.
Lemma fr_wait_ch first k c : c_state c = ServerWaitClientHello first -> frugal c -> wp (process_wait_ch C first k) c Q.
Proof.
  intros S F. unfold process_wait_ch. destruct k as [| |[]| |]; try (apply fr_base; exact F). wstep.
  apply wpb_mono with (P := fun _ c' => frugal c' /\ c_state c' = c_state c).
  { destruct first; cbn [negb]; [apply fr_setup; exact F|]. wrun; (split; [exact F | reflexivity]). }
  intros r c1 [F1 S1]. destruct r; [|exact F1]. rewrite S in S1. clear c S F.
  apply (wpb_rel _ _ _ negR); [apply negR_negociate|]. intros r c2 [E _] _.
  assert (F2 : frugal c2) by (apply (frugal_same c1); try (rewrite E; reflexivity); exact F1).
  assert (S2 : c_state c2 = c_state c1) by (rewrite E; reflexivity). rewrite S1 in S2. clear E F1 S1 c1. destruct r as [[[clear enc] shared]|]; [|exact F2].
  destruct shared as [key|]; [|apply fr_hrr; [exact S2 | exact F2]].
  apply wpb_mono with (P := Q); [apply fr_hello; exact F2|]. clear c2 F2 S2. intros r c F. destruct r; [|exact F]. wstep.
  assert (Fin : forall c, frugal c -> wp (server_send_certificate C ;; (do h <- digest C; do f <- ask_cipher (fun x => sign_finish C h x);
      send_content C (KHandshake (HFinished f)) ;; (do h <- digest C; do c <- get;
      if require_peer_auth (c_config c) then raise XType else set_state (ServerWaitFinished h)))) c Q).
  { clear. intros c F. apply wpb_mono with (P := Q); [apply fr_cert; exact F|]. clear c F. intros r c F. destruct r; [|exact F].
    wrun; try exact F. apply wpb_send. intros r oc t hs lg o _ Sd _. eapply fr_send in Sd; [|discriminate|exact F]. destruct r; [|exact Sd].
    revert Sd. generalize (after_send c oc t hs lg o). clear. intros c F. wrun; try exact F.
    apply frugal_go; [reflexivity | discriminate | exact F]. }
  destruct (require_peer_auth (c_config c)); [|wstep; apply Fin; exact F].
  apply wpb_send. intros r oc t hs lg o _ Sd _. eapply fr_send in Sd; [|discriminate|exact F]. destruct r; [apply Fin|]; exact Sd.
Qed.
Lemma fr_process k c : frugal c -> wp (process C k) c Q.
Proof.
  intro F. unfold process. wstep. pose proof F as (_ & _ & O & _). destruct (c_state c) eqn:S; try discriminate O.
  - apply fr_base; exact F.
  - apply fr_wait_ch; [exact S | exact F].
  - unfold process_server_finished, Q. destruct k as [| |[]| |]; try (apply fr_base; exact F). wrun; try exact F.
    apply wpb_on_cipher; [intro; exact F|]. intros y r y' _ _. destruct r; [|exact F]. wrun. apply frugal_go; [reflexivity | discriminate | exact F].
  - destruct k; try (apply fr_base; exact F). wrun. exact F.
  - destruct can_recv; [|exact F]. destruct k; try (apply fr_base; exact F). wrun. exact F.
  - exact F.
Qed.
Lemma fr_handle ct d c : frugal c -> wp (handle_content C ct d) c Q.
Proof.
  intro F. apply wp_handle; unfold Q; intros; try exact F.
  - apply fr_process; exact F.
  - apply fr_process. apply (frugal_same c); try reflexivity; [|exact F].
    pose proof F as (_ & G & _). cbn [c_hs cset_hs]. rewrite retries_app, G. cbn [other_side m_side fst side_eqb andb]. lia.
Qed.
Lemma fr_fail a c : frugal c -> frugal (snd (fail C a c)).
Proof.
  intro F. unfold fail. change (wp (match a with Some code => send_content C (KAlert FATAL code) | None => ret tt end ;; set_state Failed) c Q).
  destruct a; [|wrun; apply frugal_go; [reflexivity | discriminate | exact F]].
  apply wpb_send. intros r oc t hs lg o _ Sd _. eapply fr_send in Sd; [|discriminate|exact F]. destruct r; [|exact Sd].
  wrun. apply frugal_go; [reflexivity | discriminate | exact Sd].
Qed.
End retry.
Lemma frugal_run C ops c : mfl_good c /\ frugal c -> mfl_good (run C ops c) /\ frugal (run C ops c).
Proof.
  apply good_run with (J := frugal); try (intros; assumption).
  - intros c0 c1 (Rd & _) F. apply (frugal_same c0); try exact F; rewrite Rd; reflexivity.
  - intros. apply fr_fail. assumption.
  - intros ct d c0 _ F. eapply wp_mono; [apply fr_handle; exact F|]. intros [?|?] ? H; exact H.
  - intros d c0 _ F. change (wp (send_data C d) c0 (fun _ => frugal)). unfold send_data. wstep.
    apply wpb_send. intros r oc t hs lg o _ Sd _. eapply fr_send in Sd; [|discriminate|exact F]. destruct r; [wstep|]; exact Sd.
  - intros c0 _ F. change (wp (initiate_connection C) c0 (fun _ => frugal)). unfold initiate_connection. wstep.
    pose proof F as (_ & _ & O & _). destruct (c_state c0) eqn:S; try discriminate O; wrun; try exact F.
    apply frugal_go; [reflexivity | rewrite S; reflexivity | exact F].
  - intros c0 _ F. change (wp (close_receiving_end C) c0 (fun _ => frugal)). unfold close_receiving_end. wstep.
    destruct (negb (is_post_handshake c0)); [apply fr_fail; exact F|]. wrun; (apply frugal_go; [reflexivity | discriminate | exact F]).
  - intros c0 _ F. change (wp (close_sending_end C) c0 (fun _ => frugal)). unfold close_sending_end. wstep.
    apply wpb_mono with (P := fun _ => frugal).
    { wrun; try exact F; (apply frugal_go; [reflexivity | discriminate | exact F]). }
    intros r c1 F1. destruct r; [|exact F1]. wstep. destruct (can_send (c_state c1)); [|exact F1].
    apply wpb_send. intros r oc t hs lg o _ Sd _. eapply fr_send in Sd; [|discriminate|exact F1]. destruct r; [|exact Sd].
    wrun. destruct (c_state _) eqn:S; try exact Sd. apply frugal_go; [reflexivity | discriminate | exact Sd].
Qed.
Lemma server_one_retry C g c : g_side g = Server -> started C g c -> (sent_retries (c_hs c) <= 1)%nat.
Proof.
  intros Hg (c0 & ops & K & O & ->). pose proof (created_mfl _ _ K) as M. apply created_cases in K.
  assert (F : frugal c0).
  { destruct K as [(Sd & _) | (_ & ocsp & unique & rng & t & -> & _)]; [congruence|].
    split; [exact O|]. split; [exact Hg|]. split; [reflexivity|]. cbn. lia. }
  destruct (frugal_run C ops c0 (conj M F)) as [_ (_ & _ & _ & L)]. destruct (virgin _); lia.
Qed.
