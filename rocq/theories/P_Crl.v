(* A client with a revocation list. *)
From Verif Require Import Base P_Base Iana Crypto Config Serial Ext Msg Hkdf Cipher Kex Sig Ocsp Transcript Conn S_Hist S_Conn S_State P_Monad P_Frame P_Hist P_Send P_Wp P_State P_Net3 Crl S_Crl.

Lemma revocation_cases crl certs : verify_revocation crl certs = Ok tt /\ ((forall n l, crl <> Some (n :: l)) \/ certs = []) \/
  verify_revocation crl certs = Err XType /\ (exists n l, crl = Some (n :: l)) /\ certs <> [].
Proof.
  destruct crl as [[|n l]|]; [left; split; [reflexivity | left; discriminate]| |left; split; [reflexivity | left; discriminate]].
  destruct certs as [|d certs]; [left; split; [reflexivity | right; reflexivity]|]. right. split; [reflexivity|]. split; [eauto | discriminate].
Qed.
Lemma revocation_clean serial crl certs : verify_revocation crl certs = Ok tt -> clean serial crl certs.
Proof.
  destruct (revocation_cases crl certs) as [[_ [N| ->]]|[E _]]; intro K; [|intros d []|congruence].
  intros d _ (l & El & I). destruct l as [|n l]; [destruct I | exact (N _ _ El)].
Qed.
Lemma conn_revocation g crl leaf rest : listed g crl ->
  match g_crl g with None => Ok tt | Some _ => Err XType end = verify_revocation crl (leaf :: rest).
Proof.
  intros [A B]. destruct (g_crl g) as [k|].
  - destruct A as (n & l & ->); [discriminate | reflexivity].
  - destruct crl as [[|n l]|]; try reflexivity. exfalso. apply B; [eauto | reflexivity].
Qed.

Lemma check_revocation C g crl host ocsp e rest : listed g crl ->
  client_check_x509 C g host ocsp (e :: rest) =
  let* _ := match cr_verify_chain C (g_trust g) (g_depth g) (match host with Some [] => None | _ => host end) (en_data e) (map en_data rest) with
            | Err XVerif => Err (XAlert BAD_CERTIFICATE) | r => r end in
  let* _ := verify_revocation crl (map en_data (e :: rest)) in
  verify_statuses C ocsp (e :: rest).
Proof.
  intro L. unfold client_check_x509. cbn [map]. rewrite <- (conn_revocation g crl (en_data e) (map en_data rest) L).
  match goal with |- context [cr_verify_chain _ _ _ ?x _ _] => replace x with (match host with Some [] => None | _ => host end) by (destruct host as [[|? ?]|]; reflexivity) end.
  match goal with |- context [cr_verify_chain ?a ?b ?c ?d ?e ?f] => destruct (cr_verify_chain a b c d e f) as [[]|[]] end; reflexivity.
Qed.

Definition wary (c : conn) : Prop := g_side (c_config c) = Client /\ g_crl (c_config c) <> None /\ require_peer_auth (c_config c) = true.
Lemma wary_stable C : stable C (fun c c' => wary c -> wary c').
Proof.
  pose proof (impl_preorder wary) as P.
  assert (K : forall A (f : cs -> res A * cs), rel (fun c c' => wary c -> wary c') (on_cipher f)) by (intros A f; apply (rel_on_cipher _ P); intros; assumption).
  split; try exact P; try (intros; assumption); try (intros; apply K).
  - intros exts c. unfold client_neg_mfl; rewrite bind_get.
    destruct (ext_get MAX_FRAGMENT_LENGTH exts) as [[]|]; try exact (fun H => H);
      [destruct (mfl_octets code); [|exact (fun H => H)]; destruct (negb _); [exact (fun H => H)|]|];
      unfold upd_nc; rewrite bind_get; destruct (c_nc c); exact (fun H => H).
  - intros exts c. unfold server_neg_mfl; rewrite bind_get.
    destruct (ext_get MAX_FRAGMENT_LENGTH exts) as [[]|]; try exact (fun H => H);
      [destruct (mfl_octets code); [|exact (fun H => H)]|];
      unfold upd_nc, bind, get; destruct (c_nc c); exact (fun H => H).
  - intros. unfold transcribe. reli P; [apply rel_on_tr | apply rel_modify]; intros; assumption.
  - intros. apply rel_on_tr; intros; assumption.
  - intros. apply rel_on_tr; intros; assumption.
  - intros s0 sd. unfold set_cipher. reli P; apply rel_modify; intros; assumption.
  - intros k c. pose proof (sending_content C k c) as (E & _). unfold wary. rewrite E. exact (fun H => H).
Qed.

Section wary.
Variable C : crypto.
Let I (c : conn) : Prop := unconvinced (phase_of (c_state c)) = true.
Let Q : res unit -> conn -> Prop := fun _ c' => I c'.
Lemma u_same c c' : c_state c' = c_state c -> I c -> I c'.
Proof. unfold I. intros ->. exact (fun H => H). Qed.
Lemma u_send k c : I c -> I (snd (send_content C k c)).
Proof. apply u_same. apply samest_send. Qed.
Lemma u_fail a c : I c -> I (snd (fail C a c)).
Proof.
  intro H. unfold fail. unfold bind.
  assert (H1 : I (snd ((match a with Some code => send_content C (KAlert FATAL code) | None => ret tt end) c))).
  { destruct a; [apply u_send|]; exact H. }
  destruct ((match a with Some code => send_content C (KAlert FATAL code) | None => ret tt end) c) as [[?|?] c1]; [reflexivity | exact H1].
Qed.
Lemma u_base k c : I c -> wp (base_process k) c Q.
Proof. intro H. unfold base_process, Q. wrun; try exact H; reflexivity. Qed.
Lemma u_initiate c : I c -> wp (initiate_connection C) c Q.
Proof.
  intro H. unfold initiate_connection, Q. wstep. destruct (c_state c) eqn:S; try (exfalso; unfold I in H; rewrite S in H; discriminate H); wrun; try exact H.
  unfold client_initiate. wrun; try exact H.
  apply wpb_send. intros [[]|e] oc0 t0 hs0 lg0 o0 _ _ _; [|exact H]. wrun; try exact H; reflexivity.
Qed.
Lemma u_wait_sh a b d k c : I c -> wp (process_wait_sh C a b d k) c Q.
Proof.
  intros H. unfold process_wait_sh, Q.
  destruct k as [| |[]| |]; try (apply u_base; exact H);
    try (destruct a; [apply u_base; exact H | wrun; exact H]).
  wstep. wstep; [wstep; exact H|].
  assert (K : forall c1, c_state c1 = c_state c ->
     wp (if hrr then client_process_hrr C d exts else client_process_sh C b random exts) c1 Q).
  { intros c1 S1. assert (H1 : I c1) by (eapply u_same; [exact S1 | exact H]). destruct hrr.
    - unfold client_process_hrr. wrun; try exact H1. apply u_initiate. reflexivity.
    - unfold client_process_sh, client_negociate_hello. wrun; try exact H1.
      apply wpb_on_cipher; [intros _; exact H1|]. intros x r x' E1 E2. destruct r; [|exact H1]. wrun; try exact H1.
      apply wpb_on_cipher; [intros _; exact H1|]. intros y r y' E3 E4. destruct r; [|exact H1]. wrun. reflexivity. }
  wrun; try exact H; try (apply K; reflexivity).
  apply wpb_send. intros [[]|e] oc0 t0 hs0 lg0 o0 _ _ _; [|exact H]. apply K. reflexivity.
Qed.
Lemma u_wait_ee k c : I c -> wp (process_wait_ee k) c Q.
Proof.
  intros H. apply wp_ee. unfold ee_body. destruct k as [| |[]| |]; try (apply u_base; exact H).
  apply (wpb_rel _ _ Q negR); [apply negR_client|]. intros r c' [E _] _.
  assert (S' : c_state c' = c_state c) by (rewrite E; reflexivity).
  destruct r; [|eapply u_same; [exact S' | exact H]]. wrun. reflexivity.
Qed.
Lemma check_wary g host ocsp l : g_crl g <> None -> client_check_x509 C g host ocsp l <> Ok tt.
Proof.
  intros Hg E. unfold client_check_x509 in E. destruct (map en_data l) as [|leaf rest]; [discriminate|].
  match type of E with context [cr_verify_chain ?a ?b ?c ?d ?e ?f] => destruct (cr_verify_chain a b c d e f) as [[]|[]] end; try discriminate E.
  destruct (g_crl g); [discriminate E | destruct (Hg eq_refl)].
Qed.
Lemma u_wait_certificate m k c : wary c -> I c -> wp (process_wait_certificate C m k) c Q.
Proof.
  intros (_ & W & A) H. unfold process_wait_certificate. destruct k as [| |[]| |]; try (apply u_base; exact H).
  wstep. cbv zeta. rewrite A. wrun; try exact H.
  all: match goal with E : client_check_x509 _ _ _ _ _ = Ok ?u |- _ => destruct u; exfalso; exact (check_wary _ _ _ _ W E) end.
Qed.
Lemma u_wait_cert_cr k c : wary c -> I c -> wp (process_wait_cert_cr C k) c Q.
Proof.
  intros W H. unfold process_wait_cert_cr. destruct k as [| |[]| |]; try (apply u_base; exact H).
  - wrun. reflexivity.
  - wrun. apply u_wait_certificate; [exact W | reflexivity].
Qed.
Lemma u_process k c : wary c -> I c -> wp (process C k) c Q.
Proof.
  intros W H. unfold process. wstep. destruct (c_state c) eqn:S; try (apply u_base; exact H);
    try (exfalso; unfold I in H; rewrite S in H; discriminate H).
  - apply u_wait_sh; assumption.
  - apply u_wait_ee; assumption.
  - apply u_wait_cert_cr; assumption.
  - apply u_wait_certificate; assumption.
  - destruct can_recv; [|exact H]. destruct k; try (apply u_base; exact H). exact H.
  - exact H.
Qed.
Lemma u_handle ct d c : wary c -> I c -> wp (handle_content C ct d) c Q.
Proof.
  intros W H. unfold handle_content. wrun; try exact H; try (apply u_process; [exact W | exact H]).
Qed.
Lemma u_close_r c : I c -> I (snd (close_receiving_end C c)).
Proof.
  intro Ia. unfold close_receiving_end. rewrite bind_get. destruct (is_post_handshake c) eqn:E; cbn [negb]; [|apply u_fail; exact Ia].
  destruct (c_state c) eqn:Sa; try reflexivity; exfalso; unfold I in Ia; rewrite Sa in Ia; discriminate Ia.
Qed.
Lemma u_close_s c : I c -> I (snd (close_sending_end C c)).
Proof.
  intro Ia. unfold close_sending_end. rewrite bind_get.
  assert (K : forall b, I b -> I (snd ((do c <- get; (if can_send (c_state c)
    then send_content C (KAlert WARNING CLOSE_NOTIFY) ;;
         modify (fun c => match c_state c with Closed r _ => cset_state (Closed r false) c | _ => c end)
    else ret tt)) b))).
  { intros b Hb. rewrite bind_get. destruct (can_send (c_state b)); [|exact Hb].
    pose proof (u_send (KAlert WARNING CLOSE_NOTIFY) b Hb) as K. unfold bind.
    destruct (send_content C _ b) as [[?|?] b1]; [|exact K]. unfold modify; cbn [snd] in *.
    destruct (c_state b1) eqn:Sb; try exact K. reflexivity. }
  unfold bind at 1. destruct (c_state c) eqn:Sa; unfold ret, set_state, modify;
    try (apply K; reflexivity); apply K; exact Ia.
Qed.
Lemma wary_run ops c : wary c -> I c -> wary (run C ops c) /\ I (run C ops c).
Proof.
  intros W H. apply (goodE_run C wary (wary_stable C)) with (J := I); try (intros; assumption).
  - intros a b [E _]. unfold I. rewrite E. exact (fun H => H).
  - intros code a _ _. apply u_fail.
  - intros ct d a Wa Ia. eapply wp_mono; [apply u_handle; assumption|]. intros [|] c' K; exact K.
  - intros d a _ Ia. apply u_send. exact Ia.
  - intros a _ Ia. exact (u_initiate a Ia).
  - intros a _ Ia. apply u_close_r. exact Ia.
  - intros a _ Ia. apply u_close_s. exact Ia.
  - exact (conj W H).
Qed.
End wary.
Lemma wary_stays C g c : g_side g = Client -> g_crl g <> None -> require_peer_auth g = true -> reachable C g c ->
  unconvinced (phase_of (c_state c)) = true.
Proof.
  intros Sd Cr A (c0 & ops & K & ->). apply wary_run; apply created_cases in K;
    destruct K as [(_ & host & ocsp & unique & rng & t & -> & _) | (Sd' & _)]; try congruence; [exact (conj Sd (conj Cr A)) | reflexivity].
Qed.
