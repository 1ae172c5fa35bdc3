(* Symbolic execution of the computations on the connection. *)
From Verif Require Import Base P_Base Iana Crypto Config Serial Ext Msg Hkdf Cipher Kex Sig Ocsp Transcript Conn S_Hist P_Monad P_Frame P_Hist P_Send.

Definition wp {A} (m : M A) (c : conn) (Q : res A -> conn -> Prop) : Prop := Q (fst (m c)) (snd (m c)).
Lemma wp_eq A (m : M A) c (Q : res A -> conn -> Prop) : wp m c Q -> forall r c', m c = (r, c') -> Q r c'.
Proof. unfold wp. intros H r c' E. rewrite E in H. exact H. Qed.
Lemma wp_intro A (m : M A) c (Q : res A -> conn -> Prop) : (forall r c', m c = (r, c') -> Q r c') -> wp m c Q.
Proof. unfold wp. intro H. destruct (m c) as [r c'] eqn:E. apply H. reflexivity. Qed.
Lemma wp_mono A (m : M A) c (Q Q' : res A -> conn -> Prop) :
  wp m c Q -> (forall r c', Q r c' -> Q' r c') -> wp m c Q'.
Proof. unfold wp. auto. Qed.
Lemma wp_unret A (m : M A) c (Q : res A -> conn -> Prop) : wp (bind m ret) c Q -> wp m c Q.
Proof. unfold wp, bind. destruct (m c) as [[a|e] c1]; exact (fun H => H). Qed.
Lemma wp_ret A (a : A) c (Q : res A -> conn -> Prop) : Q (Ok a) c -> wp (ret a) c Q. Proof. exact (fun H => H). Qed.
Lemma wp_raise A e c (Q : res A -> conn -> Prop) : Q (Err e) c -> wp (raise e) c Q. Proof. exact (fun H => H). Qed.

Section wpb.
Variables (A B : Type) (Q : res B -> conn -> Prop).
Lemma wpb_mono (m : M A) (f : A -> M B) c (P : res A -> conn -> Prop) :
  wp m c P -> (forall r c1, P r c1 -> match r with Ok a => wp (f a) c1 Q | Err e => Q (Err e) c1 end) ->
  wp (bind m f) c Q.
Proof.
  unfold wp, bind. intros H K. destruct (m c) as [[a|e] c1]; cbn [fst snd] in *; [exact (K (Ok a) c1 H) | exact (K (Err e) c1 H)].
Qed.
Lemma wpb_bind D (m : M A) (f : A -> M D) (g : D -> M B) c :
  wp (bind m (fun a => bind (f a) g)) c Q -> wp (bind (bind m f) g) c Q.
Proof. unfold wp. rewrite bind_assoc. exact (fun H => H). Qed.
Lemma wpb_get (f : conn -> M B) c : wp (f c) c Q -> wp (bind get f) c Q. Proof. exact (fun H => H). Qed.
Lemma wpb_modify (g : unit -> M B) h c : wp (g tt) (h c) Q -> wp (bind (modify h) g) c Q. Proof. exact (fun H => H). Qed.
Lemma wpb_set_state (g : unit -> M B) s c : wp (g tt) (cset_state s c) Q -> wp (bind (set_state s) g) c Q. Proof. exact (fun H => H). Qed.
Lemma wpb_ret (a : A) (f : A -> M B) c : wp (f a) c Q -> wp (bind (ret a) f) c Q. Proof. exact (fun H => H). Qed.
Lemma wpb_raise e (f : A -> M B) c : Q (Err e) c -> wp (bind (raise e) f) c Q. Proof. exact (fun H => H). Qed.
Lemma wpb_lift (r : res A) (f : A -> M B) c :
  (forall a, r = Ok a -> wp (f a) c Q) -> (forall e, r = Err e -> Q (Err e) c) -> wp (bind (lift r) f) c Q.
Proof. unfold wp, bind, lift. intros H1 H2. destruct r; [apply H1 | apply H2]; reflexivity. Qed.
Lemma wpb_ask (h : cs -> res A) (f : A -> M B) c :
  (c_cipher c = None -> Q (Err XAttr) c) ->
  (forall x a, c_cipher c = Some x -> h x = Ok a -> wp (f a) c Q) ->
  (forall x e, c_cipher c = Some x -> h x = Err e -> Q (Err e) c) -> wp (bind (ask_cipher h) f) c Q.
Proof.
  unfold ask_cipher. intros H1 H2 H3. unfold wp. rewrite bind_assoc, bind_get. destruct (c_cipher c) as [x|]; [|apply H1; reflexivity].
  specialize (H2 x). specialize (H3 x). unfold bind, lift. destruct (h x); [apply H2 | apply H3]; reflexivity.
Qed.
Lemma wpb_on_cipher (h : cs -> res A * cs) (f : A -> M B) c :
  (c_cipher c = None -> Q (Err XAttr) c) ->
  (forall x r x', c_cipher c = Some x -> h x = (r, x') ->
     match r with Ok a => wp (f a) (cset_cipher (Some x') c) Q | Err e => Q (Err e) (cset_cipher (Some x') c) end) ->
  wp (bind (on_cipher h) f) c Q.
Proof.
  intros H1 H2. unfold wp, bind. destruct (on_cipher h c) as [r c1] eqn:E. apply on_cipher_inv in E.
  destruct E as [(E & -> & ->) | (x & x1 & E1 & E2 & ->)]; [apply H1; exact E|].
  specialize (H2 x r x1 E1 E2). destruct r; exact H2.
Qed.
End wpb.
Lemma wpb_upd_nc B (Q : res B -> conn -> Prop) h (f : unit -> M B) c :
  (c_nc c = None -> Q (Err XAttr) c) ->
  (forall n, c_nc c = Some n -> wp (f tt) (cset_nc (Some (h n)) c) Q) -> wp (bind (upd_nc h) f) c Q.
Proof.
  intros H1 H2. unfold wp, bind at 1 2. destruct (upd_nc h c) as [r c1] eqn:E. apply upd_nc_inv in E.
  destruct E as [(E & -> & ->) | (n & E & -> & ->)]; [apply H1; exact E | exact (H2 n E)].
Qed.
Lemma wpb_digest B (Q : res B -> conn -> Prop) C (f : bytes -> M B) c :
  (forall h, tr_digest C (c_tr c) = Ok h -> wp (f h) c Q) ->
  (forall e, tr_digest C (c_tr c) = Err e -> Q (Err e) c) -> wp (bind (digest C) f) c Q.
Proof.
  intros H1 H2. unfold digest, wp. rewrite bind_assoc, bind_get. apply (wpb_lift _ _ Q (tr_digest C (c_tr c)) f c); assumption.
Qed.
Lemma wpb_draw B (Q : res B -> conn -> Prop) (f : bytes -> M B) c :
  wp (f (c_rng c (c_rngi c))) (cset_rngi (c_rngi c + 1) c) Q -> wp (bind draw f) c Q.
Proof. exact (fun H => H). Qed.
Lemma wpb_transcribe B (Q : res B -> conn -> Prop) d sd ty (f : unit -> M B) c :
  (forall t, tr_update d sd ty (c_tr c) = (Ok tt, t) ->
     wp (f tt) (cset_hs (c_hs c ++ [(sd, ty, d)]) (cset_tr t c)) Q) ->
  (forall e t, tr_update d sd ty (c_tr c) = (Err e, t) -> Q (Err e) (cset_tr t c)) ->
  wp (bind (transcribe d sd ty) f) c Q.
Proof.
  intros H1 H2. unfold wp, bind, transcribe, on_tr, bind, modify.
  destruct (tr_update d sd ty (c_tr c)) as [[[]|e] t]; [apply H1 | apply H2]; reflexivity.
Qed.
Lemma wpb_tr_method B (Q : res B -> conn -> Prop) h (f : unit -> M B) c :
  (forall t, h (c_tr c) = Ok t -> wp (f tt) (cset_tr t c) Q) ->
  (forall e, h (c_tr c) = Err e -> Q (Err e) c) ->
  wp (bind (tr_method h) f) c Q.
Proof.
  intros H1 H2. unfold wp, bind, tr_method, on_tr.
  destruct (h (c_tr c)) as [t|e]; [apply H1; reflexivity|].
  replace (cset_tr (c_tr c) c) with c by (destruct c; reflexivity). apply H2; reflexivity.
Qed.
Lemma wpb_set_cipher B (Q : res B -> conn -> Prop) s sd (f : unit -> M B) c :
  wp (f tt) (cset_cipher (Some (cs_logs (klog c) (cs_new (epoch_w c) (epoch_r c) s sd))) c) Q -> wp (bind (set_cipher s sd) f) c Q.
Proof. exact (fun H => H). Qed.

(* sending: what becomes of the transcript *)
Definition said (C : crypto) (k : content) (c : conn) (r : res unit) (t : transcript) (hs : list (side * N * bytes)) : Prop :=
  match k with
  | KHandshake h =>
    (r <> Ok tt /\ t = c_tr c /\ hs = c_hs c) \/
    exists ty data, msg_type h = Some ty /\ ser_content C k = Ok data /\
      ((tr_update data (g_side (c_config c)) ty (c_tr c) = (Ok tt, t) /\ hs = c_hs c ++ [(g_side (c_config c), ty, data)]) \/
       exists e, tr_update data (g_side (c_config c)) ty (c_tr c) = (Err e, t) /\ hs = c_hs c /\ r = Err e)
  | _ => t = c_tr c /\ hs = c_hs c
  end.
Definition after_send (c : conn) oc t hs lg o : conn :=
  cset_out o (cset_log lg (cset_hs hs (cset_tr t (cset_cipher oc c)))).
Lemma cut_after_send c c' : sending c c' -> c' = after_send c (c_cipher c') (c_tr c') (c_hs c') (c_log c') (c_out c').
Proof. intros [H _]. rewrite H at 1. destruct c; reflexivity. Qed.
Lemma fragments_tr C ct mfl l : rel (fun a b => c_tr b = c_tr a /\ c_hs b = c_hs a) (send_fragments C ct mfl l).
Proof.
  assert (P : preorder (fun a b => c_tr b = c_tr a /\ c_hs b = c_hs a)).
  { split; [auto|]. intros a b c [A1 A2] [B1 B2]. split; congruence. }
  induction l as [|f l IH]; cbn [send_fragments]; reli P; [|exact IH].
  unfold encrypt_fragment. apply rel_get'. intro c0. cbv zeta. reli P.
  - intro c1. unfold on_cipher. rewrite bind_get. destruct (c_cipher c1) as [y|]; [|apply P].
    destruct (encrypt C _ _ y) as [[?|?] ?]; split; reflexivity.
  - apply rel_modify. intro. split; reflexivity.
Qed.
Lemma send_said C k c r c' : send_content C k c = (r, c') -> said C k c r (c_tr c') (c_hs c').
Proof.
  intro H. unfold send_content in H. rewrite bind_get in H.
  assert (NH : forall k, (forall h, k <> KHandshake h) -> forall t hs, t = c_tr c -> hs = c_hs c -> said C k c r t hs).
  { clear. intros k K t hs -> ->. destruct k; try (split; reflexivity). destruct (K _ eq_refl). }
  assert (EH : forall e, (Err e : res unit, c) = (r, c') -> said C k c r (c_tr c') (c_hs c')).
  { intros e E. injection E; intros; subst. destruct k; try (split; reflexivity). left. split; [discriminate | split; reflexivity]. }
  destruct ((content_type k =? CT_APPDATA) && negb (can_send_app (c_state c))); [eapply EH; exact H|].
  destruct (negb (can_send (c_state c))); [eapply EH; exact H|].
  assert (K : forall (c1 : conn) data r c',
     (do c <- get;
      do fragments <- lift (fragments_of (fragment_limit c) (can_fragment k) data);
      do out <- send_fragments C (content_type k) (max_frag c) fragments;
      modify (fun c => cset_out (c_out c ++ out) c)) c1 = (r, c') -> c_tr c' = c_tr c1 /\ c_hs c' = c_hs c1).
  { clear. intros c1 data r c' H. rewrite bind_get in H. unfold bind at 1, lift in H.
    destruct (fragments_of _ _ _) as [fl|e]; [|injection H; intros; subst; auto].
    pose proof (fragments_tr C (content_type k) (max_frag c1) fl c1) as F. unfold bind in H.
    destruct (send_fragments C (content_type k) (max_frag c1) fl c1) as [[o|e] c2]; injection H; intros; subst; exact F. }
  destruct k as [| |h| |]; try (eapply EH; exact H);
  (destruct (ser_content C _) as [dat|e] eqn:Es; [|eapply EH; exact H]; unfold bind at 1, lift in H).
  - rewrite bind_ret in H. apply K in H. apply NH; [discriminate | tauto | tauto].
  - rewrite bind_ret in H. apply K in H. apply NH; [discriminate | tauto | tauto].
  - destruct (msg_type h) as [ty|] eqn:Et; [|eapply EH; exact H].
    right. exists ty, dat. split; [exact Et|]. split; [exact Es|].
    unfold transcribe in H. rewrite bind_assoc in H. unfold bind at 1, on_tr in H.
    destruct (tr_update dat (g_side (c_config c)) ty (c_tr c)) as [[[]|e] t] eqn:Eu.
    + left. rewrite bind_modify in H. apply K in H. destruct H as [H1 H2]. rewrite H1, H2. split; reflexivity.
    + right. exists e. injection H; intros; subst. repeat split.
  - rewrite bind_ret in H. apply K in H. apply NH; [discriminate | tauto | tauto].
Qed.
Lemma wpb_send B (Q : res B -> conn -> Prop) C k (f : unit -> M B) c :
  (forall r oc t hs lg o, olift cs_write (c_cipher c) oc -> said C k c r t hs ->
     send_content C k c = (r, after_send c oc t hs lg o) ->
     match r with
     | Ok _ => wp (f tt) (after_send c oc t hs lg o) Q
     | Err e => Q (Err e) (after_send c oc t hs lg o)
     end) -> wp (bind (send_content C k) f) c Q.
Proof.
  intros H. pose proof (sending_content C k c) as S. unfold wp, bind.
  destruct (send_content C k c) as [r c'] eqn:E. cbn [snd] in S.
  pose proof (cut_after_send c c' S) as Cut. pose proof (send_said C k c r c' E) as Sd.
  destruct S as (_ & S & _). specialize (H r (c_cipher c') (c_tr c') (c_hs c') (c_log c') (c_out c') S Sd).
  rewrite <- Cut in H. specialize (H eq_refl). destruct r as [[]|]; exact H.
Qed.

(* one step of symbolic execution; stops on named computations *)
Ltac wstep :=
  lazymatch goal with
  | |- wp (bind (bind _ _) _) _ _ => apply wpb_bind
  | |- wp (bind get _) _ _ => apply wpb_get
  | |- wp (bind (modify _) _) _ _ => apply wpb_modify
  | |- wp (bind (set_state _) _) _ _ => apply wpb_set_state
  | |- wp (bind (ret _) _) _ _ => apply wpb_ret
  | |- wp (bind (raise _) _) _ _ => apply wpb_raise
  | |- wp (bind (lift _) _) _ _ => apply wpb_lift; [intros ? ?|intros ? ?]
  | |- wp (bind (ask_cipher _) _) _ _ => apply wpb_ask; [intros ?|intros ? ? ? ?|intros ? ? ? ?]
  | |- wp (bind (upd_nc _) _) _ _ => apply wpb_upd_nc; [intros ?|intros ? ?]
  | |- wp (bind (digest _) _) _ _ => apply wpb_digest; [intros ? ?|intros ? ?]
  | |- wp (bind draw _) _ _ => apply wpb_draw
  | |- wp (bind (transcribe _ _ _) _) _ _ => apply wpb_transcribe; [intros ? ?|intros ? ? ?]
  | |- wp (bind (tr_method _) _) _ _ => apply wpb_tr_method; [intros ? ?|intros ? ?]
  | |- wp (bind (set_cipher _ _) _) _ _ => apply wpb_set_cipher
  | |- wp (bind (match ?x with _ => _ end) _) _ _ => let E := fresh "B" in destruct x eqn:E
  | |- wp (match ?x with _ => _ end) _ _ => let E := fresh "B" in destruct x eqn:E
  | |- wp (ret _) _ _ => apply wp_ret
  | |- wp (raise _) _ _ => apply wp_raise
  | |- wp (lift _) _ _ => apply wp_unret
  | |- wp (modify _) _ _ => apply wp_unret
  | |- wp (set_state _) _ _ => apply wp_unret
  | |- wp (upd_nc _) _ _ => apply wp_unret
  | |- wp (digest _) _ _ => apply wp_unret
  | |- wp (send_content _ _) _ _ => apply wp_unret
  | |- wp (on_cipher _) _ _ => apply wp_unret
  | |- wp (tr_method _) _ _ => apply wp_unret
  | |- wp (transcribe _ _ _) _ _ => apply wp_unret
  end.
Ltac wrun := repeat (wstep; cbv beta iota zeta).

(* --- histories --------------------------------------------------------- *)
(* [E] is a property kept by every handler whatever [I] says; [J] is what
   holds between an error of a handler and the alert that answers it *)
Section invE.
Variable C : crypto.
Variable E : conn -> Prop.
Let R (c c' : conn) : Prop := E c -> E c'.
Hypothesis HE : stable C R.
Hypothesis E_app : forall c v, R c (cset_app v c).
Hypothesis E_out : forall c v, R c (cset_out v c).
Hypothesis E_in : forall c v, R c (cset_in v c).
Hypothesis E_inhs : forall c v, R c (cset_inhs v c).
Variables I J : conn -> Prop.
Hypothesis H_read : forall c c', reading c c' -> I c -> I c'.
Hypothesis H_app : forall c v, I c -> I (cset_app v c).
Hypothesis H_out : forall c v, I c -> I (cset_out v c).
Hypothesis H_IJ : forall c, I c -> J c.
Hypothesis H_fail : forall code c, code < 256 -> E c -> J c -> I (snd (fail C (Some code) c)).
Hypothesis H_hand : forall ct d c, E c -> I c ->
  wp (handle_content C ct d) c (fun r c' => match r with Ok _ => I c' | Err _ => J c' end).
Hypothesis H_send : forall d c, E c -> I c -> I (snd (send_data C d c)).
Hypothesis H_init : forall c, E c -> I c -> I (snd (initiate_connection C c)).
Hypothesis H_close_r : forall c, E c -> I c -> I (snd (close_receiving_end C c)).
Hypothesis H_close_s : forall c, E c -> I c -> I (snd (close_sending_end C c)).

Let G (c : conn) := E c /\ I c.
Lemma goodE_guarded c : G c -> G (snd (guarded C (receive_one C) c)).
Proof.
  intros [M Ic]. split.
  { apply (stable_guarded C R (HE)); [|exact M].
    apply (stable_receive_one C R HE); intros; auto. }
  unfold guarded, receive_one.
  pose proof (reading_content C c) as Rd.
  assert (M1 : R c (snd (read_next_content C c))).
  { apply (stable_read_next_content C R HE); intros; auto. }
  unfold bind at 1. destruct (read_next_content C c) as [r c1]. cbn [snd] in Rd, M1.
  pose proof (H_read c c1 Rd Ic) as I1. specialize (M1 M).
  assert (F : forall e c2, E c2 -> J c2 -> I (snd match fail C (Some match alert_of e with Some code => code | None => INTERNAL_ERROR end) c2 with
             | (Ok _, c2) => (Err e : res bool, c2)
             | (Err e2, c2) => (Err e2, c2)
             end)).
  { intros e c2 M2 J2. match goal with |- context [fail C (Some ?k)] => assert (L : k < 256); [|pose proof (H_fail k c2 L M2 J2) as Z] end.
    { destruct e; try reflexivity. cbn. destruct (code <? 256) eqn:Ec; [apply N.ltb_lt; exact Ec | reflexivity]. }
    destruct (fail C _ c2) as [[?|?] c3]; exact Z. }
  destruct r as [[[ct d]|]|e]; [| exact I1 | apply F; auto].
  pose proof (H_hand ct d c1 M1 I1) as H. unfold wp in H.
  pose proof (stable_handle C R (HE) (fun c v => E_app c _) ct d c1) as M2.
  unfold bind. destruct (handle_content C ct d c1) as [[[]|e] c2]; cbn [fst snd] in *; [exact H|].
  apply F; [exact (M2 M1) | exact H].
Qed.
Lemma goodE_loop n c : G c -> G (snd (receive_loop n C c)).
Proof.
  revert c. induction n as [|n IH]; intros c H; cbn [receive_loop]; unfold bind;
  pose proof (goodE_guarded c H) as H1; destruct (guarded C (receive_one C) c) as [[[|]|e] c1]; cbn; auto.
Qed.
Lemma goodE_receive d c : G c -> G (snd (receive_data C d c)).
Proof.
  intros H. unfold receive_data. destruct (is_nil d); [exact H|]. rewrite bind_get.
  destruct (negb (can_receive (c_state c))); [exact H|]. rewrite bind_modify.
  assert (H1 : G (cset_in (c_in c ++ d) c)).
  { destruct H as [M Ic]. split; [apply E_in; exact M|]. eapply H_read; [|exact Ic]. apply reading_in. }
  pose proof (goodE_loop (length (c_in c ++ d)) _ H1) as H2. unfold bind at 1.
  destruct (receive_loop _ C _) as [[[]|e] c2]; cbn [snd] in *; [|exact H2].
  rewrite bind_get. destruct (c_cipher c2) as [x|]; [|exact H2].
  unfold bind, lift. destruct (should_rekey x) as [[|]|]; try exact H2.
  unfold rekey, bind, get. destruct (negb _); exact H2.
Qed.
Lemma snd_bind_ret A B (m : M A) (b : B) c : snd (bind m (fun _ => ret b) c) = snd (m c).
Proof. unfold bind. destruct (m c) as [[?|?] ?]; reflexivity. Qed.
Lemma goodE_step o c : G c -> G (after C o c).
Proof.
  intro H. destruct o; unfold after, step.
  all: try (rewrite snd_bind_ret).
  - split; [apply (stable_initiate_connection C R (HE) c); apply H | apply H_init; apply H].
  - apply goodE_receive. exact H.
  - split; [apply (stable_send_data C R (HE) d c); apply H | apply H_send; apply H].
  - destruct H. split; [apply E_app; assumption | apply H_app; assumption].
  - destruct H. split; [apply E_out; assumption | apply H_out; assumption].
  - unfold rekey, bind, get. destruct (negb _); exact H.
  - split; [apply (stable_close_receiving_end C R (HE) c); apply H | apply H_close_r; apply H].
  - split; [apply (stable_close_sending_end C R (HE) c); apply H | apply H_close_s; apply H].
Qed.
Lemma goodE_run ops c : G c -> G (run C ops c).
Proof. revert c. induction ops as [|o ops IH]; intros c H; [exact H|]. cbn [run]. apply IH. apply goodE_step. exact H. Qed.
End invE.
Section inv.
Variable C : crypto.
Variables I J : conn -> Prop.
Hypothesis H_read : forall c c', reading c c' -> I c -> I c'.
Hypothesis H_app : forall c v, I c -> I (cset_app v c).
Hypothesis H_out : forall c v, I c -> I (cset_out v c).
Hypothesis H_IJ : forall c, I c -> J c.
Hypothesis H_fail : forall code c, code < 256 -> mfl_good c -> J c -> I (snd (fail C (Some code) c)).
Hypothesis H_hand : forall ct d c, mfl_good c -> I c ->
  wp (handle_content C ct d) c (fun r c' => match r with Ok _ => I c' | Err _ => J c' end).
Hypothesis H_send : forall d c, mfl_good c -> I c -> I (snd (send_data C d c)).
Hypothesis H_init : forall c, mfl_good c -> I c -> I (snd (initiate_connection C c)).
Hypothesis H_close_r : forall c, mfl_good c -> I c -> I (snd (close_receiving_end C c)).
Hypothesis H_close_s : forall c, mfl_good c -> I c -> I (snd (close_sending_end C c)).
Lemma good_step o c : mfl_good c /\ I c -> mfl_good (after C o c) /\ I (after C o c).
Proof.
  apply (goodE_step C mfl_good (mflR_stable C)) with (J := J); try assumption; intros c0 v Hm; exact Hm.
Qed.
Lemma good_run ops c : mfl_good c /\ I c -> mfl_good (run C ops c) /\ I (run C ops c).
Proof.
  apply (goodE_run C mfl_good (mflR_stable C)) with (J := J); try assumption; intros c0 v Hm; exact Hm.
Qed.
Lemma inv_reachable g c : (forall c0, created g c0 -> I c0) -> reachable C g c -> I c.
Proof.
  intros H0 (c0 & ops & H & ->). apply good_run. split; [eapply created_mfl; exact H | apply H0; exact H].
Qed.
End inv.
