(* How many records one handshake message takes, and that a short history has
   room for an alert. *)
From Verif Require Import Base P_Base Iana Crypto Config Serial Ext Msg Hkdf Cipher Kex Sig Ocsp Transcript Conn
  S_Hist S_Conn S_State S_Send S_Nonce S_Alert S_Utils S_Keys S_Auth
  P_Monad P_Frame P_Hist P_Send P_Wp P_State P_Speak P_Alert P_Keys P_Tr P_Wire P_Nonce P_Count P_Auth.

Definition logn (c : conn) : N := N.of_nat (length (c_log c)).
Lemma frag_log C ct mfl f c : logn (snd (encrypt_fragment C ct mfl f c)) <= logn c + 1.
Proof.
  unfold encrypt_fragment. rewrite bind_get. cbv zeta.
  destruct (to_bytes 2 _) as [l|e]; [|unfold lift, bind; cbn [snd]; lia].
  change (bind (lift (Ok l)) ?k c) with (k l c). cbv beta zeta.
  set (data := inner_bytes ct mfl (tag_len c) f). set (aad := Nb CT_APPDATA :: x03 :: x03 :: l).
  destruct (on_cipher (encrypt C data aad) c) as [r0 c0] eqn:E0.
  match goal with |- context [bind ?m ?k c] =>
    assert (E1 : m c = (match r0 with Ok z => Ok z | Err e => Err (in_generator e) end, c0)) by
      (rewrite E0; destruct r0; reflexivity);
    rewrite (bind_eq _ _ m k c _ _ E1); clear E1 end.
  apply on_cipher_inv in E0. assert (L : logn c0 = logn c).
  { destruct E0 as [(_ & -> & ->) | (x & x1 & Ex & E & ->)]; reflexivity. }
  destruct r0 as [[b s]|e]; [|cbn [snd]; lia]. rewrite bind_modify.
  assert (L1 : logn (cset_log (s :: c_log c0) c0) = logn c + 1) by (unfold logn in *; cbn [c_log cset_log length]; lia).
  match goal with |- context [if ?b then _ else _] => destruct b end; cbn [snd raise ret]; lia.
Qed.
Lemma frags_log C ct mfl : forall l c, logn (snd (send_fragments C ct mfl l c)) <= logn c + N.of_nat (length l).
Proof.
  induction l as [|f l IH]; intro c; cbn [send_fragments length]; [cbn [snd ret]; lia|].
  rewrite bind_get. assert (H : logn (snd ((if enc_on c
             then do e <- encrypt_fragment C ct mfl f; lift (record_bytes CT_APPDATA e)
             else lift (record_bytes ct f)) c)) <= logn c + 1).
  { destruct (enc_on c); [|unfold lift; cbn [snd]; lia]. pose proof (frag_log C ct mfl f c) as H.
    unfold bind, lift. destruct (encrypt_fragment C ct mfl f c) as [[?|?] c1]; exact H. }
  unfold bind at 1. match goal with |- context [match ?m with _ => _ end] => destruct m as [[r|e] c1] end; cbn [snd] in *; [|lia].
  specialize (IH c1). unfold bind. destruct (send_fragments C ct mfl l c1) as [[?|?] c2]; cbn [snd ret] in *; lia.
Qed.
Lemma frags_log_plain C ct mfl : forall l c, enc_on c = false -> snd (send_fragments C ct mfl l c) = c.
Proof.
  induction l as [|f l IH]; intros c E; cbn [send_fragments]; [reflexivity|]. rewrite bind_get, E.
  unfold bind at 1, lift. destruct (record_bytes ct f); [|reflexivity]. specialize (IH c E).
  unfold bind. destruct (send_fragments C ct mfl l c) as [[?|?] c2]; exact IH.
Qed.
(* the rest of [send_content] *)
Lemma send_log_cases C k c : forall r c', send_content C k c = (r, c') -> c_log c' = c_log c \/
  exists data c1 fl, ser_content C k = Ok data /\ c_log c1 = c_log c /\ enc_on c1 = enc_on c /\
    fragments_of (fragment_limit c) (can_fragment k) data = Ok fl /\
    c_log c' = c_log (snd (send_fragments C (content_type k) (max_frag c) fl c1)).
Proof.
  intros r c' H. unfold send_content in H. rewrite bind_get in H.
  assert (EH : forall e, (Err e : res unit, c) = (r, c') -> c_log c' = c_log c) by (intros e E; injection E; intros <- _; reflexivity).
  destruct ((content_type k =? CT_APPDATA) && negb (can_send_app (c_state c))); [left; eapply EH; exact H|].
  destruct (negb (can_send (c_state c))); [left; eapply EH; exact H|].
  assert (K : forall data c1, ser_content C k = Ok data -> c_log c1 = c_log c -> enc_on c1 = enc_on c -> fragment_limit c1 = fragment_limit c -> max_frag c1 = max_frag c ->
     (do c <- get;
      do fragments <- lift (fragments_of (fragment_limit c) (can_fragment k) data);
      do out <- send_fragments C (content_type k) (max_frag c) fragments;
      modify (fun c => cset_out (c_out c ++ out) c)) c1 = (r, c') -> c_log c' = c_log c \/
      exists data c1 fl, ser_content C k = Ok data /\ c_log c1 = c_log c /\ enc_on c1 = enc_on c /\
        fragments_of (fragment_limit c) (can_fragment k) data = Ok fl /\
        c_log c' = c_log (snd (send_fragments C (content_type k) (max_frag c) fl c1))).
  { clear H. intros data c1 Es E1 E2 E4 E5 H. rewrite bind_get, E4, E5 in H. unfold bind at 1, lift in H.
    destruct (fragments_of _ _ _) as [fl|e] eqn:Ef; [|left; injection H; intros <- _; exact E1].
    right. exists data, c1, fl. repeat (split; [assumption|]). unfold bind in H.
    destruct (send_fragments _ _ _ _ c1) as [[?|?] ?]; injection H; intros <- _; reflexivity. }
  destruct k as [| |h| |]; try (left; eapply EH; exact H);
  (destruct (ser_content C _) as [dat|e] eqn:Es; [|left; eapply EH; exact H]; unfold bind at 1, lift in H).
  - rewrite bind_ret in H. eapply K; [..|exact H]; reflexivity.
  - rewrite bind_ret in H. eapply K; [..|exact H]; reflexivity.
  - destruct (msg_type h) as [ty|] eqn:Et; [|left; eapply EH; exact H].
    unfold transcribe in H. rewrite bind_assoc in H. unfold bind at 1, on_tr in H.
    destruct (tr_update dat (g_side (c_config c)) ty (c_tr c)) as [[[]|e] t] eqn:Eu; [|left; injection H; intros <- _; reflexivity].
    rewrite bind_modify in H. eapply K; [..|exact H]; reflexivity.
  - rewrite bind_ret in H. eapply K; [..|exact H]; reflexivity.
Qed.
Lemma send_log_plain C k c : enc_on c = false -> c_log (snd (send_content C k c)) = c_log c.
Proof.
  intro E. destruct (send_log_cases C k c _ _ (surjective_pairing _)) as [H|(data & c1 & fl & _ & E1 & E2 & _ & H)]; [exact H|].
  rewrite H, frags_log_plain by congruence. exact E1.
Qed.
Lemma chunks_count n : 400 <= n -> forall fuel b, (length b <= fuel)%nat -> N.of_nat (length (chunks fuel n b)) <= blen b / 400 + 1.
Proof.
  intro Hn. induction fuel as [|fuel IH]; intros b Hb.
  - destruct b; [|cbn in Hb; lia]. cbn. lia.
  - destruct b as [|x b]; [cbn; lia|]. cbn [chunks].
    assert (L : (length (bdrop n (x :: b)) <= fuel)%nat).
    { pose proof (blen_bdrop n (x :: b)) as L. unfold blen in L. cbn [length] in *. lia. }
    destruct (N.le_gt_cases (blen (x :: b)) n) as [Lt|Gt].
    + pose proof (blen_bdrop n (x :: b)) as E. assert (Z : blen (bdrop n (x :: b)) = 0) by lia.
      destruct (bdrop n (x :: b)) as [|y l]; [|unfold blen in Z; cbn in Z; lia].
      match goal with |- _ <= ?q + 1 => generalize q end. intro q. destruct fuel; cbn [chunks length]; lia.
    + specialize (IH _ L). cbn [length]. pose proof (blen_bdrop n (x :: b)) as E.
      assert (Q : blen (bdrop n (x :: b)) / 400 + 1 <= blen (x :: b) / 400); [|lia].
      replace (blen (bdrop n (x :: b)) / 400 + 1) with ((blen (bdrop n (x :: b)) + 1 * 400) / 400) by (rewrite N.div_add by lia; reflexivity).
      apply N.div_le_mono; lia.
Qed.
Lemma ser_hs_len C h data : ser_content C (KHandshake h) = Ok data -> blen data <= 16777219.
Proof.
  intro H. unfold ser_content, ser_hs in H. apply rbind_ok in H as (b & Hb & H). destruct (msg_type h); [|discriminate].
  apply rbind_ok in H as (t & Ht & H). apply rbind_ok in H as (e & He & H). injection H; intros <-.
  apply to_bytes_ok in Ht as (_ & _ & Lt & _). apply put_var_ok in He as [-> L]. change (256 ^ N.of_nat 3) with 16777216 in L.
  rewrite !blen_app, blen_be_bytes, Lt. lia.
Qed.
Lemma send_log_hs C h c : able c -> logn (snd (send_content C (KHandshake h) c)) <= logn c + 50000.
Proof.
  intro A. destruct (send_log_cases C (KHandshake h) c _ _ (surjective_pairing _)) as [H|(data & c1 & fl & Es & E1 & E2 & Ef & H)].
  { unfold logn. rewrite H. lia. }
  unfold logn at 1. rewrite H. fold (logn (snd (send_fragments C (content_type (KHandshake h)) (max_frag c) fl c1))).
  pose proof (frags_log C (content_type (KHandshake h)) (max_frag c) fl c1) as L.
  assert (E3 : logn c1 = logn c) by (unfold logn; rewrite E1; reflexivity). rewrite E3 in L.
  assert (Lf : 400 <= fragment_limit c).
  { apply N.leb_le. apply (small_limit c 400 (proj1 A)). lia. }
  apply ser_hs_len in Es. unfold fragments_of in Ef. destruct (blen data <=? fragment_limit c).
  - injection Ef; intros <-. cbn [length] in L. lia.
  - destruct (can_fragment _); [|discriminate]. injection Ef; intros <-.
    pose proof (chunks_count (fragment_limit c) Lf (length data) data (le_n _)) as K.
    assert (Q : blen data / 400 <= 16777219 / 400) by (apply N.div_le_mono; lia). change (16777219 / 400) with 41943 in Q. lia.
Qed.

(* --- few records leave room ---------------------------------------------- *)
Lemma few_room c : countI c -> few c -> (forall x, c_cipher c = Some x -> usage_limit (cs_suite x) <> None) -> room c.
Proof.
  intros (_ & _ & S) F U x Ex _. specialize (U x Ex). destruct (usage_limit (cs_suite x)) as [lim|] eqn:E; [|destruct (U eq_refl)].
  apply usage_limit_table in E. exists lim. split; [exact E|]. intros q Eq. unfold seqI in S. rewrite Ex in S. specialize (S q Eq).
  unfold few in F. assert (11863283 <= lim); [|lia].
  cbn [In limit_table] in E. destruct E as [E|[E|[E|[]]]]; injection E; intros <- _; discriminate.
Qed.
Lemma sending_few c c' : sending c c' -> few c' -> few c.
Proof.
  intros (_ & _ & _ & (l & E) & _). unfold few. rewrite E, app_length. lia.
Qed.

(* --- invariants of every handler, two at a time -------------------------- *)
Lemma stable_both C (P1 P2 : conn -> Prop) :
  stable C (fun c c' => P1 c -> P1 c') -> stable C (fun c c' => P2 c -> P2 c') -> stable C (fun c c' => P1 c /\ P2 c -> P1 c' /\ P2 c').
Proof.
  intros H1 H2. split.
  - split; auto.
  - intros c s g l [M V]. split; [exact (st_config C _ H1 c s g l M) | exact (st_config C _ H2 c s g l V)].
  - intros c s [M V]. split; [exact (st_nc_new C _ H1 c s M) | exact (st_nc_new C _ H2 c s V)].
  - intros c n f E F [M V]. split; [exact (st_nc_upd C _ H1 c n f E F M) | exact (st_nc_upd C _ H2 c n f E F V)].
  - intros exts ca [M V]. split; [exact (st_cmfl C _ H1 exts ca M) | exact (st_cmfl C _ H2 exts ca V)].
  - intros exts ca [M V]. split; [exact (st_smfl C _ H1 exts ca M) | exact (st_smfl C _ H2 exts ca V)].
  - intros c v [M V]. split; [exact (st_sig C _ H1 c v M) | exact (st_sig C _ H2 c v V)].
  - intros c v [M V]. split; [exact (st_cunique C _ H1 c v M) | exact (st_cunique C _ H2 c v V)].
  - intros c v [M V]. split; [exact (st_sunique C _ H1 c v M) | exact (st_sunique C _ H2 c v V)].
  - intros c v [M V]. split; [exact (st_rngi C _ H1 c v M) | exact (st_rngi C _ H2 c v V)].
  - intros c v [M V]. split; [exact (st_state C _ H1 c v M) | exact (st_state C _ H2 c v V)].
  - intros d sd ty ca [M V]. split; [exact (st_transcribe C _ H1 d sd ty ca M) | exact (st_transcribe C _ H2 d sd ty ca V)].
  - intros h ca [M V]. split; [exact (st_post C _ H1 h ca M) | exact (st_post C _ H2 h ca V)].
  - intros sd h ca [M V]. split; [exact (st_dance C _ H1 sd h ca M) | exact (st_dance C _ H2 sd h ca V)].
  - intros s sd ca [M V]. split; [exact (st_cs_new C _ H1 s sd ca M) | exact (st_cs_new C _ H2 s sd ca V)].
  - intros  ca [M V]. split; [exact (st_skip C _ H1  ca M) | exact (st_skip C _ H2  ca V)].
  - intros a b ca [M V]. split; [exact (st_hsk C _ H1 a b ca M) | exact (st_hsk C _ H2 a b ca V)].
  - intros a b ca [M V]. split; [exact (st_msk C _ H1 a b ca M) | exact (st_msk C _ H2 a b ca V)].
  - intros d a ca [M V]. split; [exact (st_decrypt C _ H1 d a ca M) | exact (st_decrypt C _ H2 d a ca V)].
  - intros k ca [M V]. split; [exact (st_send C _ H1 k ca M) | exact (st_send C _ H2 k ca V)].
Qed.
Definition ready (c : conn) : Prop := able c /\ countI c.
Lemma ready_stable C : stable C (fun c c' => ready c -> ready c').
Proof. apply stable_both; [apply able_stable | apply countR_stable]. Qed.
Lemma created_ready g c : created g c -> ready c.
Proof. intro K. split; [eapply created_able | eapply created_count]; exact K. Qed.
