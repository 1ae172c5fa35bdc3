(* The states only go forward. *)
From Verif Require Import Base P_Base Iana Crypto Config Serial Ext Msg Hkdf Cipher Kex Sig Ocsp Transcript Conn S_Hist S_Conn S_State P_Monad P_Frame P_Hist P_Send P_Wp.
Require Import Coq.Relations.Relation_Operators.

Lemma wpb_rel A B (Q : res B -> conn -> Prop) R (m : M A) (f : A -> M B) c :
  rel R m -> (forall r c', R c c' -> m c = (r, c') -> match r with Ok a => wp (f a) c' Q | Err e => Q (Err e) c' end) ->
  wp (bind m f) c Q.
Proof.
  intros H K. specialize (H c). unfold wp, bind. destruct (m c) as [r c1] eqn:E. cbn [snd] in H.
  specialize (K r c1 H eq_refl). destruct r; exact K.
Qed.
(* negotiation only touches these *)
Definition negR (c c' : conn) : Prop :=
  c' = cset_nc (c_nc c') (cset_sig (c_sig c') (cset_rngi (c_rngi c') c)) /\
  opt_bool (c_nc c') = opt_bool (c_nc c).
Lemma negR_pre : preorder negR.
Proof.
  split.
  - intro c. split; [destruct c|]; reflexivity.
  - intros a b c [A1 A2] [B1 B2]. split; [rewrite B1 at 1; rewrite A1 at 1; reflexivity | congruence].
Qed.
Lemma negR_upd f : rel negR (upd_nc f).
Proof.
  intro c. unfold upd_nc. rewrite bind_get. destruct (c_nc c) eqn:E; [|apply negR_pre].
  split; [destruct c; reflexivity | cbn; rewrite E; reflexivity].
Qed.
Lemma negR_sig v : rel negR (modify (cset_sig v)).
Proof. intro c. split; destruct c; reflexivity. Qed.
Lemma negR_draw : rel negR draw.
Proof. intro c. split; destruct c; reflexivity. Qed.
Lemma negR_negociate C exts : rel negR (server_negociate C exts).
Proof.
  unfold server_negociate, server_neg_versions, server_neg_groups, server_neg_sigalgs,
    server_neg_key_share, server_neg_cct, server_neg_sct, server_neg_alpn, server_neg_mfl,
    server_neg_heartbeat, server_neg_status.
  reli negR_pre; try apply negR_upd; try apply negR_sig; try apply negR_draw.
Qed.
Definition client_neg_all (exts : list ext) : M unit :=
  client_neg_mfl exts ;; client_neg_alpn exts ;; client_neg_heartbeat exts ;; client_neg_cct exts ;; client_neg_sct exts.
Lemma negR_client exts : rel negR (client_neg_all exts).
Proof.
  unfold client_neg_all, client_neg_mfl, client_neg_alpn, client_neg_heartbeat, client_neg_cct, client_neg_sct.
  reli negR_pre; try apply negR_upd.
Qed.
Lemma ee_alt k c : process_wait_ee k c =
  match k with
  | KHandshake (HEncExt exts) => (client_neg_all exts ;; set_state ClientWaitCertCr) c
  | _ => base_process k c
  end.
Proof.
  destruct k as [| |[]| |]; try reflexivity. unfold process_wait_ee, client_neg_all.
  rewrite !bind_assoc. unfold bind.
  destruct (client_neg_mfl exts c) as [[?|?] c1]; [|reflexivity].
  destruct (client_neg_alpn exts c1) as [[?|?] c2]; [|reflexivity].
  destruct (client_neg_heartbeat exts c2) as [[?|?] c3]; [|reflexivity].
  destruct (client_neg_cct exts c3) as [[?|?] c4]; reflexivity.
Qed.
Lemma wp_ext A (m m' : M A) c Q : m c = m' c -> wp m' c Q -> wp m c Q.
Proof. unfold wp. intros ->. exact (fun H => H). Qed.
Definition ee_body (k : content) : M unit :=
  match k with
  | KHandshake (HEncExt exts) => client_neg_all exts ;; set_state ClientWaitCertCr
  | _ => base_process k
  end.
Lemma wp_ee k c Q : wp (ee_body k) c Q -> wp (process_wait_ee k) c Q.
Proof. apply wp_ext. rewrite ee_alt. destruct k as [| |[]| |]; reflexivity. Qed.

(* a computation that does not assign the state *)
Definition samest (c c' : conn) : Prop := c_state c' = c_state c.
Lemma samest_pre : preorder samest.
Proof. split; unfold samest; congruence. Qed.
Lemma samest_send C k : rel samest (send_content C k).
Proof. intro c. destruct (sending_content C k c) as [H _]. unfold samest. rewrite H. reflexivity. Qed.

Section path.
Variable C : crypto.
(* [path], or another relation that contains the edges *)
Variable R : phase -> phase -> Prop.
Hypothesis Rtrans : forall p q r, R p q -> R q r -> R p r.
Hypothesis Redge : forall p q, edge p q -> q <> PConnected -> R p q.
Variable p0 : phase.
Let I (c : conn) : Prop := R p0 (phase_of (c_state c)).
Let Q : res unit -> conn -> Prop := fun _ c' => I c'.
Lemma I_same c c' : c_state c' = c_state c -> I c -> I c'.
Proof. unfold I. intros ->. exact (fun H => H). Qed.
Lemma I_next c s : I c -> R (phase_of (c_state c)) (phase_of s) -> I (cset_state s c).
Proof. unfold I. cbn. intros A B. eapply Rtrans; eassumption. Qed.
Lemma keep_send k c : I c -> I (snd (send_content C k c)).
Proof. apply I_same. apply samest_send. Qed.
Ltac step1 := apply Redge; [constructor | discriminate].
Lemma p_fail a c : I c -> I (snd (fail C a c)).
Proof.
  intro H. unfold fail. unfold bind.
  assert (H1 : I (snd ((match a with Some code => send_content C (KAlert FATAL code) | None => ret tt end) c))).
  { destruct a; [apply keep_send|]; exact H. }
  destruct ((match a with Some code => send_content C (KAlert FATAL code) | None => ret tt end) c) as [[?|?] c1]; [|exact H1].
  unfold set_state, modify; cbn [snd]. apply I_next; [exact H1 | step1].
Qed.
Lemma p_base k c : I c -> wp (base_process k) c Q.
Proof.
  intro H. unfold base_process, Q. wrun; try exact H. apply I_next; [exact H | step1].
Qed.
Lemma p_initiate c : I c -> wp (initiate_connection C) c Q.
Proof.
  intro H. unfold initiate_connection, Q. wstep. destruct (c_state c) eqn:S; wrun; try exact H.
  - unfold client_initiate. wrun; try exact H.
    apply wpb_send. intros [[]|e] oc0 t0 hs0 lg0 o0 _ _ _; [|exact H].
    wrun; try exact H. apply I_next; [exact H|]. cbn. rewrite S. step1.
  - apply I_next; [exact H|]. rewrite S. step1.
Qed.
Lemma p_wait_sh a b d k c : c_state c = ClientWaitServerHello a b d -> I c -> wp (process_wait_sh C a b d k) c Q.
Proof.
  intros S H. unfold process_wait_sh, Q.
  destruct k as [| |[]| |]; try (apply p_base; exact H);
    try (destruct a; [apply p_base; exact H | wrun; exact H]).
  wstep. wstep; [wstep; exact H|].
  assert (K : forall c1, c_state c1 = c_state c ->
     wp (if hrr then client_process_hrr C d exts else client_process_sh C b random exts) c1 Q).
  { intros c1 S1. assert (H1 : I c1) by (eapply I_same; [exact S1 | exact H]). destruct hrr.
    - unfold client_process_hrr. wrun; try exact H1.
      match goal with |- wp _ ?x _ => assert (H2 : I x) end.
      { apply I_next; [exact H1|]. cbn. rewrite S1, S. step1. }
      apply p_initiate. exact H2.
    - unfold client_process_sh, client_negociate_hello. wrun; try exact H1.
      apply wpb_on_cipher; [intros _; exact H1|]. intros x r x' E1 E2. destruct r; [|exact H1]. wrun; try exact H1.
      apply wpb_on_cipher; [intros _; exact H1|]. intros y r y' E3 E4. destruct r; [|exact H1]. wrun.
      apply I_next; [exact H1|]. cbn. rewrite S1, S. step1. }
  wrun; try exact H; try (apply K; reflexivity).
  apply wpb_send. intros [[]|e] oc0 t0 hs0 lg0 o0 _ _ _; [|exact H]. apply K. reflexivity.
Qed.
Lemma p_wait_ee k c : c_state c = ClientWaitEncryptedExtensions -> I c -> wp (process_wait_ee k) c Q.
Proof.
  intros S H. apply wp_ee. unfold ee_body. destruct k as [| |[]| |]; try (apply p_base; exact H).
  apply (wpb_rel _ _ Q negR); [apply negR_client|]. intros r c' [E _] _.
  assert (S' : c_state c' = c_state c) by (rewrite E; reflexivity).
  destruct r; [|eapply I_same; [exact S' | exact H]]. wrun.
  apply I_next; [eapply I_same; [exact S' | exact H]|]. rewrite S', S. step1.
Qed.
Lemma p_wait_certificate m k c : c_state c = ClientWaitCertificate m -> I c -> wp (process_wait_certificate C m k) c Q.
Proof.
  intros S H. unfold process_wait_certificate. destruct k as [| |[]| |]; try (apply p_base; exact H).
  wrun; try exact H; (apply I_next; [exact H|]; cbn; rewrite S; step1).
Qed.
Lemma p_wait_cert_cr k c : c_state c = ClientWaitCertCr -> I c -> wp (process_wait_cert_cr C k) c Q.
Proof.
  intros S H. unfold process_wait_cert_cr. destruct k as [| |[]| |]; try (apply p_base; exact H).
  - wrun. apply I_next; [exact H|]. rewrite S. step1.
  - wrun. apply p_wait_certificate; [reflexivity|]. apply I_next; [exact H|]. rewrite S. step1.
Qed.
Lemma p_wait_cv m h k c : c_state c = ClientWaitCertificateVerify m h -> I c -> wp (process_wait_cv C m h k) c Q.
Proof.
  intros S H. unfold process_wait_cv. destruct k as [| |[]| |]; try (apply p_base; exact H).
  wrun; try exact H; (apply I_next; [exact H|]; cbn; rewrite S; step1).
Qed.
Lemma p_client_finished m h k c : R CWaitFinished PConnected -> c_state c = ClientWaitFinished m h -> I c -> wp (process_client_finished C m h k) c Q.
Proof.
  intros Rf S H. unfold process_client_finished. destruct k as [| |[]| |]; try (apply p_base; exact H).
  wrun; try exact H. apply wpb_send. intros [[]|e] oc0 t0 hs0 lg0 o0 _ _ _; [|exact H]. wrun; try exact H.
  apply wpb_on_cipher; [intros _; exact H|]. intros y r y' _ _. destruct r; [|exact H]. wrun.
  apply I_next; [exact H|]. cbn. rewrite S. exact Rf.
Qed.
Lemma p_server_finished h k c : R SWaitFinished PConnected -> c_state c = ServerWaitFinished h -> I c -> wp (process_server_finished C h k) c Q.
Proof.
  intros Rf S H. unfold process_server_finished. destruct k as [| |[]| |]; try (apply p_base; exact H).
  wrun; try exact H.
  apply wpb_on_cipher; [intros _; exact H|]. intros y r y' _ _. destruct r; [|exact H]. wrun.
  apply I_next; [exact H|]. cbn. rewrite S. exact Rf.
Qed.
Lemma samest_setup a b : rel samest (server_setup a b).
Proof.
  unfold server_setup. reli samest_pre; try (apply rel_modify; reflexivity).
  - apply (rel_upd_nc _ samest_pre). reflexivity.
  - apply rel_on_tr; reflexivity.
Qed.
Lemma samest_hello a b d e f : rel samest (server_send_hello C a b d e f).
Proof.
  unfold server_send_hello. reli samest_pre; try apply samest_send;
   apply (rel_on_cipher _ samest_pre); reflexivity.
Qed.
Lemma samest_cert : rel samest (server_send_certificate C).
Proof. unfold server_send_certificate. reli samest_pre; apply samest_send. Qed.
Lemma p_wait_ch a k c : c_state c = ServerWaitClientHello a -> I c -> wp (process_wait_ch C a k) c Q.
Proof.
  intros S H. unfold process_wait_ch. destruct k as [| |[]| |]; try (apply p_base; exact H).
  wstep. match goal with |- wp (bind ?m _) c _ => assert (Rm : rel samest m) end.
  { reli samest_pre. apply samest_setup. }
  apply (wpb_rel _ _ Q samest); [exact Rm|]. clear Rm. intros [[]|e] c1 S1 _; (assert (H1 : I c1) by (eapply I_same; [exact S1 | exact H])); [|exact H1].
  apply (wpb_rel _ _ Q negR); [apply negR_negociate|]. intros r c2 [E2 _] _.
  assert (S2 : c_state c2 = c_state c) by (rewrite E2; exact S1). clear E2.
  assert (H2 : I c2) by (eapply I_same; [exact S2 | exact H]).
  destruct r as [[[clear enc] [key|]]|e]; [| |exact H2].
  - apply (wpb_rel _ _ Q samest); [apply samest_hello|]. intros [[]|e] c3 S3 _; (assert (H3 : I c3) by (eapply I_same; [exact S3 | exact H2])); [|exact H3].
    unfold samest in *. wstep. match goal with |- wp (bind ?m _) _ _ => assert (Rm : rel samest m) end.
    { reli samest_pre. apply samest_send. }
    apply (wpb_rel _ _ Q samest); [exact Rm|]. clear Rm. intros [[]|e] c4 S4 _; (assert (H4 : I c4) by (eapply I_same; [exact S4 | exact H3])); [|exact H4].
    apply (wpb_rel _ _ Q samest); [apply samest_cert|]. intros [[]|e] c5 S5 _; (assert (H5 : I c5) by (eapply I_same; [exact S5 | exact H4])); [|exact H5].
    wrun; try exact H5.
    apply (wpb_rel _ _ Q samest); [apply samest_send|]. intros [[]|e] c6 S6 _; (assert (H6s : I c6) by (eapply I_same; [exact S6 | exact H5])); [|exact H6s].
    wrun; try exact H6s. apply I_next; [exact H6s|]. unfold samest in *. rewrite S6, S5, S4, S3, S2, S. step1.
  - unfold server_send_hrr. wstep; [wstep; exact H2|]. wstep.
    assert (H3 : I (cset_state (ServerWaitClientHello false) c2)).
    { apply I_next; [exact H2|]. rewrite S2, S. step1. }
    wrun; try exact H3.
    apply wpb_send. intros [[]|e] oc0 t0 hs0 lg0 o0 _ _ _; [|exact H3].
    wstep. apply wpb_send. intros [[]|e] oc' t' hs' lg' o' _ _ _; exact H3.
Qed.
(* the states that a Finished ends *)
Definition last_wait (s : state) : bool := match s with ClientWaitFinished _ _ | ServerWaitFinished _ => true | _ => false end.
Lemma p_process k c : (last_wait (c_state c) = true -> R CWaitFinished PConnected /\ R SWaitFinished PConnected) -> I c -> wp (process C k) c Q.
Proof.
  intros Rf H. unfold process. wstep. destruct (c_state c) eqn:S; try (apply p_base; exact H).
  - apply p_wait_sh; assumption.
  - apply p_wait_ee; assumption.
  - apply p_wait_cert_cr; assumption.
  - apply p_wait_certificate; assumption.
  - apply p_wait_cv; assumption.
  - apply p_client_finished; try assumption. apply Rf. reflexivity.
  - apply p_wait_ch; assumption.
  - apply p_server_finished; try assumption. apply Rf. reflexivity.
  - destruct k; try (apply p_base; exact H). exact H.
  - destruct can_recv; [|exact H]. destruct k; try (apply p_base; exact H). exact H.
  - exact H.
Qed.
Lemma p_handle ct d c : (last_wait (c_state c) = true -> R CWaitFinished PConnected /\ R SWaitFinished PConnected) ->
  I c -> wp (handle_content C ct d) c Q.
Proof.
  intros Rf H. unfold handle_content. wrun; try exact H; try (apply p_process; [exact Rf | exact H]).
Qed.
Lemma p_close_r c : I c -> I (snd (close_receiving_end C c)).
Proof.
  intro Ia. unfold close_receiving_end. rewrite bind_get. destruct (is_post_handshake c) eqn:E; cbn [negb]; [|apply p_fail; exact Ia].
  destruct (c_state c) eqn:Sa; (apply I_next; [exact Ia|]); rewrite Sa; step1.
Qed.
Lemma p_close_s c : I c -> I (snd (close_sending_end C c)).
Proof.
  intro Ia. unfold close_sending_end. rewrite bind_get.
  assert (K : forall b, I b -> I (snd ((do c <- get; (if can_send (c_state c)
    then send_content C (KAlert WARNING CLOSE_NOTIFY) ;;
         modify (fun c => match c_state c with Closed r _ => cset_state (Closed r false) c | _ => c end)
    else ret tt)) b))).
  { intros b Hb. rewrite bind_get. destruct (can_send (c_state b)); [|exact Hb].
    pose proof (keep_send (KAlert WARNING CLOSE_NOTIFY) b Hb) as K. unfold bind.
    destruct (send_content C _ b) as [[?|?] b1]; [|exact K]. unfold modify; cbn [snd] in *.
    destruct (c_state b1) eqn:Sb; try exact K. apply I_next; [exact K|]. rewrite Sb. step1. }
  unfold bind at 1. destruct (c_state c) eqn:Sa; unfold ret, set_state, modify;
    try (apply K; apply I_next; [exact Ia | rewrite Sa; step1]); apply K; exact Ia.
Qed.
Lemma path_step o c : R CWaitFinished PConnected -> R SWaitFinished PConnected -> mfl_good c -> I c -> I (after C o c).
Proof.
  intros R1 R2 M H. apply (good_step C I I); try exact (conj M H); unfold I.
  - intros a b [E _]. rewrite E. exact (fun H => H).
  - intros a v; exact (fun H => H).
  - intros a v; exact (fun H => H).
  - intros a; exact (fun H => H).
  - intros code a _ _. apply p_fail.
  - intros ct d a _ Ia. eapply wp_mono; [apply p_handle; [intros _; split; assumption | exact Ia]|]. intros [|] c' K; exact K.
  - intros d a _ Ia. apply keep_send. exact Ia.
  - intros a _ Ia. exact (p_initiate a Ia).
  - intros a _ Ia. apply p_close_r. exact Ia.
  - intros a _ Ia. apply p_close_s. exact Ia.
Qed.
End path.
Lemma path_trans p q r : path p q -> path q r -> path p r.
Proof. apply rt_trans. Qed.
Lemma path_edge p q : edge p q -> q <> PConnected -> path p q.
Proof. intros E _. apply rt_step. exact E. Qed.
Lemma state_path C g c o : reachable C g c -> path (phase_of (c_state c)) (phase_of (c_state (after C o c))).
Proof.
  intros (c0 & ops & H & ->). apply path_step; try (apply rt_step; constructor); try (apply mfl_good_run; eapply created_mfl; exact H).
  - apply path_trans.
  - apply path_edge.
  - apply rt_refl.
Qed.
Lemma path_over p q : path p q -> handshaking p = false -> handshaking q = false.
Proof.
  intros H. induction H as [a b E | | a b d _ IH1 _ IH2]; [|auto|auto].
  destruct E; cbn; congruence.
Qed.
Lemma state_over C g c ops : reachable C g c -> in_handshake (c_state c) = false ->
  in_handshake (c_state (run C ops c)) = false.
Proof.
  assert (E : forall s, in_handshake s = handshaking (phase_of s)) by (intros []; reflexivity).
  revert c. induction ops as [|o ops IH]; intros c R H; [exact H|]. cbn [run]. apply IH.
  - destruct R as (c0 & l & R & ->). exists c0, (l ++ [o]). split; [exact R|].
    clear. revert c0. induction l as [|a l IH]; intro c0; [reflexivity|]. cbn [app run]. apply IH.
  - rewrite E in *. eapply path_over; [eapply state_path; exact R | exact H].
Qed.
