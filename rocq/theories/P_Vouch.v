(* A close_notify vouches for all that was written before it: the writer. *)
From Verif Require Import Base P_Base Iana Crypto Config Serial Ext Msg Hkdf Cipher Kex Sig Ocsp Transcript Conn
  S_Hist S_Conn S_Send S_Nonce S_Alert S_Auth S_Deliver S_Integrity P_Monad P_Frame P_Rec P_Send P_Nonce P_Pieces P_Alert P_Buf P_Hist P_Wire P_Count P_Integ P_Integ2.

(* a sealed close_notify, of either level *)
Definition closing (s : sealing) : Prop := exists lv, inner_plaintext (se_data s) = Ok (CT_ALERT, [lv; x00]).

Lemma seals_kind ct mfl : ct < 256 -> ct <> 0 -> forall l x,
  Forall (fun s => exists f, inner_plaintext (se_data s) = Ok (ct, f)) (seals ct mfl x l).
Proof.
  intros L Z. induction l as [|f l IH]; intro x; cbn [seals]; constructor; [|apply IH].
  exists f. unfold seal_at. cbn [se_data]. unfold inner_bytes, zeros. rewrite inner_wraps; [rewrite bN_Nb by exact L; reflexivity|].
  intro K. apply Z. rewrite <- (bN_Nb ct L), K. reflexivity.
Qed.
Lemma seals_length ct mfl : forall l x, length (seals ct mfl x l) = length l.
Proof. induction l as [|f l IH]; intro x; [reflexivity|]. cbn [seals length]. rewrite IH. reflexivity. Qed.

(* what a call of send_content appends to the log *)
Lemma send_kinds C k c r c' x : aead_sized C -> mfl_good c -> c_cipher c = Some x -> wired x ->
  match k with KAppData _ | KAlert _ _ => True | _ => False end -> send_content C k c = (r, c') ->
  exists F, c_log c' = rev F ++ c_log c /\
    Forall (fun s => exists f, inner_plaintext (se_data s) = Ok (content_type k, f)) F /\
    (can_fragment k = false -> F = [] \/ r = Ok tt /\ exists s, F = [s]).
Proof.
  intros As M Ex W Hk H.
  assert (No : c' = c -> exists F, c_log c' = rev F ++ c_log c /\
    Forall (fun s => exists f, inner_plaintext (se_data s) = Ok (content_type k, f)) F /\
    (can_fragment k = false -> F = [] \/ r = Ok tt /\ exists s, F = [s])).
  { intros ->. exists []. cbn. auto. }
  unfold send_content in H. rewrite bind_get in H.
  destruct ((content_type k =? CT_APPDATA) && negb (can_send_app (c_state c))) eqn:E1. { apply No. injection H; auto. }
  destruct (negb (can_send (c_state c))) eqn:E2. { apply No. injection H; auto. }
  assert (H' : (do data <- lift (ser_content C k); do c <- get; do fragments <- lift (fragments_of (fragment_limit c) (can_fragment k) data);
     do out <- send_fragments C (content_type k) (max_frag c) fragments; modify (fun c => cset_out (c_out c ++ out) c)) c = (r, c')).
  { destruct k; try contradiction; exact H. }
  clear H. unfold bind at 1, lift in H'. destruct (ser_content C k) as [data|e].
  2: { apply No. injection H'; auto. }
  rewrite bind_get in H'. unfold bind at 1 in H'.
  destruct (fragments_of _ _ _) as [fl|e] eqn:Ef.
  2: { apply No. injection H'; auto. }
  pose proof (mfl_good_max _ M) as V. pose proof (valid_mfl_range _ V) as Vr.
  assert (En : enc_on c = true). { unfold enc_on, must_encrypt. rewrite Ex. destruct W as (kk & _ & _ & -> & _). reflexivity. }
  assert (Lm : fragment_limit c = max_frag c - (1 + tag_length (cs_suite x))).
  { unfold fragment_limit, tag_len. rewrite En, Ex. reflexivity. }
  pose proof (tag_small (cs_suite x)) as Ts.
  assert (P : pieces (fragment_limit c) data fl) by (eapply fragments_of_spec; [|exact Ef]; lia).
  destruct P as (P1 & P2 & _).
  assert (Kt : content_type k < 256 /\ content_type k <> 0) by (destruct k; try contradiction; split; first [reflexivity | discriminate]).
  assert (Fl : Forall (fun f => blen f + 1 + tag_length (cs_suite x) <= max_frag c) fl).
  { eapply Forall_impl; [|exact P2]. cbv beta. intros f Hf. lia. }
  destruct (can_fragment k) eqn:Ek.
  - unfold bind in H'. destruct (send_fragments C (content_type k) (max_frag c) fl c) as [r1 c1] eqn:Es.
    destruct (fragments_log C (content_type k) (max_frag c) As V (proj1 Kt) (proj2 Kt) fl c x r1 c1 Ex W Fl Es) as (l1 & l2 & El & A & B & D & G).
    exists (seals (content_type k) (max_frag c) x l1).
    split; [destruct r1; injection H'; intros <- _; exact B|]. split; [apply seals_kind; apply Kt|]. intro; discriminate.
  - assert (fl = [data]) as ->. { unfold fragments_of in Ef. destruct (_ <=? _); [injection Ef; auto | discriminate Ef]. }
    inversion Fl as [|? ? L1 _]; subst. cbn [send_fragments] in H'. unfold bind at 1 in H'. rewrite bind_get, En in H'. unfold bind at 1 2 in H'.
    destruct (encrypt_fragment C (content_type k) (max_frag c) data c) as [re c1] eqn:E3.
    pose proof (encrypt_fragment_or C (content_type k) (max_frag c) data c re c1 x As V Ex W L1 E3) as K. destruct re as [b|e].
    2: { destruct K as (_ & K & _). exists []. injection H'; intros <- _. rewrite K. cbn. auto. }
    destruct K as (Lb & R & K1 & K2). unfold lift in H'. rewrite record_bytes_eq in H' by exact Lb.
    cbv [bind ret modify] in H'. injection H'; intros <- <-.
    exists (seals (content_type k) (max_frag c) x [data]). cbn [seals rev app cset_out c_log].
    split; [exact K2|]. split; [apply (seals_kind (content_type k) (max_frag c) (proj1 Kt) (proj2 Kt) [data] x)|].
    intros _. right. eauto.
Qed.
Lemma alert_log C l d c x : aead_sized C -> mfl_good c -> c_cipher c = Some x -> wired x ->
  c_log (snd (send_content C (KAlert l d) c)) = c_log c \/
  fst (send_content C (KAlert l d) c) = Ok tt /\ exists s, c_log (snd (send_content C (KAlert l d) c)) = s :: c_log c.
Proof.
  intros As M Ex W. destruct (send_content C (KAlert l d) c) as [r c'] eqn:H.
  destruct (send_kinds C (KAlert l d) c r c' x As M Ex W Logic.I H) as (F & A & _ & B). cbn [fst snd].
  destruct (B eq_refl) as [->|(-> & s & ->)]; [left; exact A | right; split; [reflexivity|]; exists s; exact A].
Qed.

Definition one_more (c c' : conn) : Prop := c_log c' = c_log c \/ c_state c' = Failed /\ exists s, c_log c' = s :: c_log c.
Lemma fail_one C code c x : aead_sized C -> mfl_good c -> c_cipher c = Some x -> wired x -> one_more c (snd (fail C (Some code) c)).
Proof.
  intros As M Ex W. unfold fail, bind. pose proof (alert_log C FATAL code c x As M Ex W) as K.
  destruct (send_content C (KAlert FATAL code) c) as [[[]|e] c1]; cbn [fst snd] in *.
  - destruct K as [K|[_ (s & K)]]; [left; exact K | right; split; [reflexivity | exists s; exact K]].
  - destruct K as [K|[K _]]; [left; exact K | discriminate K].
Qed.
Lemma handle_log C ct d c : is_post_handshake c = true ->
  is_post_handshake (snd (handle_content C ct d c)) = true /\ c_cipher (snd (handle_content C ct d c)) = c_cipher c /\ c_log (snd (handle_content C ct d c)) = c_log c.
Proof.
  intro O. pose (P := fun c1 : conn => is_post_handshake c1 = true /\ c_cipher c1 = c_cipher c /\ c_log c1 = c_log c).
  assert (K : keeps P (handle_content C ct d)); [|apply K; repeat split; exact O].
  clear O. unfold P. generalize (c_cipher c) (c_log c). clear c P. intros o lg.
  set (P := fun c1 : conn => is_post_handshake c1 = true /\ c_cipher c1 = o /\ c_log c1 = lg).
  apply of_rel. pose proof (impl_preorder P) as Q. unfold handle_content. reli Q.
  - unfold transcribe. reli Q; [apply rel_on_tr | apply rel_modify]; intros x H; exact H.
  - assert (B : forall k, rel (fun c c' => P c -> P c') (base_process k)).
    { intro k0. unfold base_process. reli Q. apply rel_modify. intros x (_ & H). split; [reflexivity | exact H]. }
    intros c1 H. pose proof H as (H1 & H2). unfold process. rewrite bind_get. unfold is_post_handshake in H1.
    destruct (c_state c1) eqn:Ec; try discriminate H1.
    + match goal with |- context [match ?k with KCcs => _ | _ => _ end] => destruct k end; try (apply B; exact H). unfold modify. cbn [snd]. exact H.
    + destruct can_recv; [|exact H].
      match goal with |- context [match ?k with KCcs => _ | _ => _ end] => destruct k end; try (apply B; exact H). unfold modify. cbn [snd]. exact H.
    + exact H.
Qed.

Section Writer.
Variable C : crypto.
Hypothesis As : aead_sized C.

Definition wiredc (c : conn) : Prop := mfl_good c /\ is_post_handshake c = true /\ exists x, c_cipher c = Some x /\ wired x.
Lemma wiredc_reading c c' : reading c c' -> wiredc c -> wiredc c' /\ c_log c' = c_log c.
Proof.
  intros [E O] (M & P & x & Ex & W). rewrite Ex in O. destruct (c_cipher c') as [x'|] eqn:E'; [|contradiction]. cbn [olift] in O. destruct O as [O _].
  assert (Hw : cs_w x' = cs_w x) by (rewrite O; reflexivity). rewrite E. split; [|reflexivity].
  split; [exact M|]. split; [exact P|]. exists x'. split; [reflexivity|]. unfold wired. rewrite Hw. exact W.
Qed.
Lemma handle_mfl ct d : rel mflR (handle_content C ct d).
Proof. apply (stable_handle C mflR (mflR_stable C)); intros; exact (fun H => H). Qed.
Lemma wiredc_handle ct d c : wiredc c -> wiredc (snd (handle_content C ct d c)) /\ c_log (snd (handle_content C ct d c)) = c_log c.
Proof.
  intros (M & P & x & Ex & W). destruct (handle_log C ct d c P) as (A & B & D). split; [|exact D].
  split; [apply (handle_mfl ct d c M)|]. split; [exact A|]. exists x. rewrite B. auto.
Qed.
Lemma wiredc_fail code c : wiredc c -> one_more c (snd (fail C (Some code) c)).
Proof. intros (M & _ & x & Ex & W). exact (fail_one C code c x As M Ex W). Qed.
Lemma guarded_log c : wiredc c ->
  match guarded C (receive_one C) c with
  | (Ok _, c') => wiredc c' /\ c_log c' = c_log c
  | (Err _, c') => one_more c c'
  end.
Proof.
  intro W. unfold guarded.
  destruct (receive_one C c) as [r c2] eqn:E1. unfold receive_one, bind in E1.
  pose proof (reading_content C c) as Rd. destruct (read_next_content C c) as [rc c1]. cbn [snd] in Rd.
  destruct (wiredc_reading c c1 Rd W) as (W1 & L1).
  assert (G : wiredc c2 /\ c_log c2 = c_log c).
  { destruct rc as [[[ct d]|]|e]; [|injection E1; intros <- _; auto|injection E1; intros <- _; auto].
    destruct (wiredc_handle ct d c1 W1) as (W2 & L2). destruct (handle_content C ct d c1) as [[[]|e] c3]; cbn [snd] in *;
      injection E1; intros <- _; (split; [exact W2 | congruence]). }
  destruct r as [b|e]; [exact G|]. destruct G as [W2 L2].
  set (al := match alert_of e with Some code => code | None => INTERNAL_ERROR end).
  pose proof (wiredc_fail al c2 W2) as K. unfold one_more in *. rewrite L2 in K.
  destruct (fail C (Some al) c2) as [[]]; exact K.
Qed.
Lemma loops_log c x : loops C c x -> wiredc c -> one_more c (snd x).
Proof.
  induction 1 as [c c1 H|c e c1 H|c c1 x H L IH]; intros W; apply guarded_log in W; rewrite H in W; cbn [snd].
  - left. apply W.
  - exact W.
  - destruct W as [W1 L1]. unfold one_more in *. rewrite L1 in IH. apply IH. exact W1.
Qed.
Lemma op_log o c : wiredc c ->
  exists F, c_log (after C o c) = rev F ++ c_log c /\
    (Forall (fun s => ~ closing s) F \/ (o = OCloseS \/ c_state (after C o c) = Failed) /\ exists s, F = [s]).
Proof.
  intros W.
  assert (Same : c_log (after C o c) = c_log c -> exists F, c_log (after C o c) = rev F ++ c_log c /\
    (Forall (fun s => ~ closing s) F \/ (o = OCloseS \/ c_state (after C o c) = Failed) /\ exists s, F = [s])).
  { intros ->. exists []. split; [reflexivity | left; constructor]. }
  pose proof W as (M & P & x & Ex & Wx).
  destruct o; try (apply Same; reflexivity).
  - apply Same. unfold after, step. rewrite snd_ret. unfold initiate_connection. rewrite bind_get. unfold is_post_handshake in P. destruct (c_state c); try discriminate P; reflexivity.
  - assert (O : one_more c (after C (ORecv d) c)).
    { unfold after, step. rewrite snd_ret. destruct d as [|b d]; [left; reflexivity|].
      destruct (can_receive (c_state c)) eqn:Cr.
      - destruct (receive_data_loops C (b :: d) c ltac:(discriminate) Cr) as (z & L & E1 & _). rewrite E1.
        exact (loops_log _ z L W).
      - destruct (receive_data_refused C (b :: d) c) as (e & ->); [right; exact Cr | left; reflexivity]. }
    destruct O as [O|[O (s & L)]]; [apply Same; exact O|]. exists [s]. split; [exact L|]. right. eauto.
  - unfold after, step. rewrite snd_ret. unfold send_data. destruct (send_content C (KAppData d) c) as [r c'] eqn:H.
    destruct (send_kinds C (KAppData d) c r c' x As M Ex Wx Logic.I H) as (F & A & B & _). exists F. split; [exact A|]. left.
    eapply Forall_impl; [|exact B]. cbv beta. intros s (f & K) (lv & K2). rewrite K in K2. discriminate K2.
  - apply Same. unfold after, step. rewrite snd_ret. unfold rekey. rewrite bind_get. destruct (negb _); reflexivity.
  - apply Same. unfold after, step. rewrite snd_ret. unfold close_receiving_end. rewrite bind_get, P. cbn [negb]. destruct (c_state c); reflexivity.
  - unfold after, step. rewrite snd_ret. unfold close_sending_end. rewrite bind_get.
    set (c1 := match c_state c with Closed _ _ | Failed => c | _ => cset_state (Closed true true) c end).
    assert (H1 : (match c_state c with Closed _ _ | Failed => ret tt | _ => set_state (Closed true true) end) c = (Ok tt, c1))
      by (unfold c1; destruct (c_state c); reflexivity).
    assert (H2 : c_log c1 = c_log c /\ c_cipher c1 = c_cipher c /\ mfl_good c1) by (unfold c1; destruct (c_state c); (split; [reflexivity | split; [reflexivity | exact M]])).
    destruct H2 as (L1 & X1 & M1). unfold bind at 1. rewrite H1, bind_get.
    destruct (can_send (c_state c1)); [|exists []; split; [exact L1 | left; constructor]].
    pose proof (alert_log C WARNING CLOSE_NOTIFY c1 x As M1 ltac:(rewrite X1; exact Ex) Wx) as K.
    unfold bind. destruct (send_content C (KAlert WARNING CLOSE_NOTIFY) c1) as [[[]|e] c2]; cbn [fst snd modify] in *.
    + destruct K as [K|[_ (s & K)]].
      * exists []. split; [destruct (c_state c2); cbn [cset_state c_log rev app]; congruence | left; constructor].
      * exists [s]. split; [destruct (c_state c2); cbn [cset_state c_log rev app]; congruence | right; eauto].
    + destruct K as [K|[K _]]; [|discriminate K]. exists []. split; [cbn [rev app]; congruence | left; constructor].
Qed.
Lemma chain_tail suite : forall E d F, chain suite d (E ++ F) -> chain suite (dbump (length E) d) F.
Proof.
  induction E as [|s E IH]; intros d F H; [exact H|]. cbn [chain app length dbump] in *. apply IH. apply H.
Qed.
Lemma rev_eq A (x y : list A) : rev x = rev y -> x = y.
Proof. intro H. rewrite <- (rev_involutive x), H. apply rev_involutive. Qed.

Variable a : conn.
Variable x0 : cs.
Hypothesis W0 : wired x0.

(* every close_notify among the records comes from a call that closes the
   sending end (or fails), and the records before it carry all that was written
   before that call *)
Definition marks (done : list op) (E : list sealing) : Prop :=
  forall i s, nth_error E i = Some s -> closing s ->
  exists o1 o o2, done = o1 ++ o :: o2 /\ (o = OCloseS \/ c_state (run C (o1 ++ [o]) a) = Failed) /\
    payload (firstn i E) = written C o1 a.
Lemma run_snoc o : forall done c, run C (done ++ [o]) c = after C o (run C done c).
Proof. induction done as [|o' done IH]; intro c; [reflexivity|]. cbn [run app]. apply IH. Qed.
Lemma written_snoc o : forall done c, written C (done ++ [o]) c = written C done c ++ op_writes o (run C done c).
Proof.
  induction done as [|o' done IH]; intro c; [cbn [run app written]; rewrite app_nil_r; reflexivity|].
  cbn [run app written]. rewrite IH, app_assoc. reflexivity.
Qed.
Lemma marks_run : mfl_good a -> is_post_handshake a = true -> c_cipher a = Some x0 -> forall done,
  writeI x0 (c_log a) (written C done a) (run C done a) /\
  exists E, c_log (run C done a) = rev E ++ c_log a /\ marks done E.
Proof.
  intros M P Ex. induction done as [|o done IH] using rev_ind.
  - split.
    + split; [|split; assumption]. exists [], x0. cbn [length dbump rev app chain written run]. repeat (split; [assumption || reflexivity || exact Logic.I|]). left. reflexivity.
    + exists []. split; [reflexivity|]. intros i s H. destruct i; discriminate H.
  - destruct IH as (Wr & E & L & Mk).
    pose proof (write_step C As x0 (c_log a) W0 _ o _ Wr) as Wr'.
    rewrite run_snoc, written_snoc. split; [exact Wr'|].
    destruct Wr as ((E1 & x & X1 & X2 & X3 & X4 & X5 & X6) & M1 & P1).
    assert (E1 = E). { rewrite L in X4. apply app_inv_tail in X4. symmetry. apply rev_eq. exact X4. } subst E1.
    assert (Wc : wiredc (run C done a)).
    { split; [exact M1|]. split; [exact P1|]. exists x. split; [exact X1|]. unfold wired. rewrite X3. apply dbump_wired. exact W0. }
    destruct (op_log o _ Wc) as (F & F1 & F2).
    exists (E ++ F). split; [rewrite F1, L, rev_app_distr, app_assoc; reflexivity|].
    intros i s Hi Hs. assert ((i < length E)%nat \/ (length E <= i)%nat) as [Li|Li] by lia.
    + rewrite nth_error_app1 in Hi by exact Li. destruct (Mk i s Hi Hs) as (o1 & o' & o2 & -> & B & D).
      exists o1, o', (o2 ++ [o]). split; [rewrite <- app_assoc; reflexivity|]. split; [exact B|].
      rewrite firstn_app. replace (i - length E)%nat with O by lia. cbn [firstn]. rewrite app_nil_r. exact D.
    + rewrite nth_error_app2 in Hi by exact Li. destruct F2 as [F2|(F2 & t & ->)].
      { exfalso. rewrite Forall_forall in F2. apply (F2 s); [eapply nth_error_In; exact Hi | exact Hs]. }
      exists done, o, []. split; [reflexivity|]. split; [rewrite run_snoc; exact F2|].
      destruct (i - length E)%nat as [|[|n]] eqn:En; [|discriminate Hi|discriminate Hi].
      assert (i = length E) as -> by lia. rewrite firstn_app, PeanoNat.Nat.sub_diag, firstn_all. cbn [firstn]. rewrite app_nil_r.
      destruct X6 as [X6|[S _]]; [exact X6|]. exfalso.
      destruct Wr' as ((E' & x' & _ & _ & _ & Y4 & Y5 & _) & _).
      assert (E' = E ++ [t]). { rewrite F1, L, app_assoc in Y4. apply app_inv_tail in Y4. apply rev_eq. rewrite rev_app_distr. symmetry. exact Y4. }
      subst E'. apply chain_tail in Y5. rewrite <- X3 in Y5. apply stuck_chain in Y5; [discriminate Y5 | exact S].
Qed.
End Writer.
