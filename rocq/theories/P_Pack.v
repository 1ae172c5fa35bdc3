(* Handshake messages and the records that carry them. *)
From Verif Require Import Base P_Base Iana Crypto Config Serial Ext Msg Hkdf Cipher Transcript Conn S_Hist S_Conn S_Send S_Nonce S_Alert S_Pack P_Monad P_Frame P_Rec P_Buf P_Send P_Hist P_Wire P_Nonce P_Alert P_Alert2 P_Split P_Memory P_Inner.
From Verif Require P_Honest.

Lemma read_clear_rest C c ct f rest : valid_mfl (max_frag c) -> dec_on c = false -> ct < 256 -> ct <> CT_CCS -> blen f <= max_frag c ->
  c_in c = record ct f ++ rest -> read_next_record C c = (Ok (Some (ct, f)), cset_in rest c).
Proof.
  intros V Dn Lc Nc Lf Ei. pose proof (valid_mfl_range _ V) as Vr.
  rewrite read_record_eq. cbv zeta. rewrite Ei.
  destruct (record_parts ct f rest) as (P1 & P2 & P3 & P4 & P5 & P6); [lia|].
  rewrite record_head by assumption. rewrite P4, P1.
  assert (5 + blen f + blen rest <? 5 = false) as -> by (apply N.ltb_ge; lia).
  unfold rec_max. rewrite Dn.
  assert (max_frag c + 0 <? blen f = false) as -> by (apply N.ltb_ge; lia).
  assert (5 + blen f + blen rest - 5 <? blen f = false) as -> by (apply N.ltb_ge; lia).
  unfold unprotect. rewrite bind_get. cbv zeta. rewrite P1, P2, P3, P6.
  change (dec_on (cset_in rest c)) with (dec_on c). rewrite Dn.
  unfold bind, ret. assert (of_bytes [Nb ct] = ct) as -> by (cbn; rewrite bN_Nb by exact Lc; lia). apply N.eqb_neq in Nc. rewrite Nc. reflexivity.
Qed.

(* --- the records that are left, once one was read ------------------------- *)
Lemma packed_same C c c' : dec_on c = false -> dec_on c' = false -> max_frag c' = max_frag c ->
  forall i l b, packed C c i l b -> forall j, packed C c' j l b.
Proof.
  intros D D' M i l b H. induction H as [i|i ct f l b H1 H2 H3 H4 H5 IH|i ct f l b x p inner H1 H2 H3 H4 H5 H6 H7 H8 H9 IH]; intro j.
  - constructor.
  - constructor; try assumption; [rewrite M; exact H4 | apply IH].
  - congruence.
Qed.
Lemma dec_bumped c c' x : c_cipher c = Some x -> c_cipher c' = Some (bumped x) -> dec_on c' = dec_on c.
Proof. unfold dec_on. intros -> ->. reflexivity. Qed.
Lemma packed_bump C c c' x : c_cipher c = Some x -> c_cipher c' = Some (bumped x) -> max_frag c' = max_frag c ->
  forall i l b, packed C c i l b -> forall j, i = j + 1 -> packed C c' j l b.
Proof.
  intros Hx Hx' M i l b H. pose proof (dec_bumped _ _ _ Hx Hx') as D.
  induction H as [i|i ct f l b H1 H2 H3 H4 H5 IH|i ct f l b y p inner H1 H2 H3 H4 H5 H6 H7 H8 H9 IH]; intros j ->.
  - constructor.
  - constructor; try assumption; [congruence | rewrite M; exact H4 | apply IH; reflexivity].
  - rewrite Hx in H1. injection H1; intros <-. apply (packed_sealed C c' j ct f l b (bumped x) p inner); try assumption; [congruence | | rewrite M; exact H6 | | apply IH; reflexivity].
    + destruct H3 as (lim & I & Q). exists lim. split; [exact I|]. intros q. unfold bumped. cbn [cs_set_r cs_r d_seq].
      destruct (d_seq (cs_r x)) as [q0|] eqn:E; [|discriminate]. intro Z; injection Z; intros <-. cbn [q_next]. specialize (Q q0 eq_refl). lia.
    + intros k iv q. unfold bumped. cbn [cs_set_r cs_r d_seq d_key d_iv cs_suite]. intros K I.
      destruct (d_seq (cs_r x)) as [q0|] eqn:E; [|discriminate]. intro Z; injection Z; intros <-. cbn [q_next].
      specialize (H7 k iv q0 K I E). replace (q_next q0 + 1 + j) with (q_next q0 + (j + 1)) by lia. exact H7.
Qed.

(* what reading a record changes: the input, and the sequence number *)
Definition moved (c c' : conn) : Prop := exists o v, c' = cset_cipher o (cset_in v c) /\
  (o = c_cipher c \/ exists x, c_cipher c = Some x /\ o = Some (bumped x)).
Lemma moved_dec c c' : moved c c' -> dec_on c' = dec_on c.
Proof. intros (o & v & -> & [-> | (x & Hx & ->)]); [reflexivity|]. unfold dec_on. cbn. rewrite Hx. reflexivity. Qed.
Lemma moved_room c c' : moved c c' -> room c -> room c'.
Proof.
  intros (o & v & -> & [-> | (x & Hx & ->)]) Rm; [exact Rm|]. intros y Ey Eny. cbn in Ey. injection Ey; intros <-.
  apply (Rm x Hx). unfold enc_on in *. rewrite Hx. exact Eny.
Qed.
Lemma read_record_iv C c r c' : read_next_record C c = (r, c') -> ivI c -> ivI c'.
Proof.
  intros E I. pose proof (stable_read_next_record C ivR (ivR_stable C) (fun c v H => H)) as H.
  specialize (H c I). rewrite E in H. exact H.
Qed.
Lemma packed_len C c i l b : packed C c i l b -> (length l <= length b)%nat.
Proof. induction 1; [apply le_n | |]; cbn [length record app]; rewrite app_length; lia. Qed.

Lemma packed_read C c ct f l b rest : ivI c -> valid_mfl (max_frag c) -> packed C c 0 ((ct, f) :: l) b -> c_in c = b ++ rest ->
  exists c' b', read_next_record C c = (Ok (Some (ct, f)), c') /\ c_in c' = b' ++ rest /\ packed C c' 0 l b' /\ ivI c' /\ moved c c'.
Proof.
  intros Iv V H Ei. inversion H as [|i ct0 f0 l0 b0 H1 H2 H3 H4 H5|i ct0 f0 l0 b0 x p inner H1 H2 H3 H4 H5 H6 H7 H8 H9]; subst.
  - assert (E : read_next_record C c = (Ok (Some (ct, f)), cset_in (b0 ++ rest) c)).
    { apply read_clear_rest; try assumption. rewrite Ei, <- app_assoc. reflexivity. }
    exists (cset_in (b0 ++ rest) c), b0. split; [exact E|]. split; [reflexivity|].
    split; [apply (packed_same C c (cset_in (b0 ++ rest) c) H1 H1 eq_refl _ _ _ H5)|]. split; [exact Iv|].
    exists (c_cipher c), (b0 ++ rest). split; [destruct c; reflexivity | left; reflexivity].
  - assert (Rr : room_r c).
    { intros y Ey _. rewrite H1 in Ey. injection Ey; intros <-. destruct H3 as (lim & I & Q). exists lim. split; [exact I|].
      intros q Eq. specialize (Q q Eq). lia. }
    destruct (read_protected C c x p (b0 ++ rest) Iv H1 H2 Rr V H6) as (k & n & Ek & En & Er).
    { rewrite Ei, <- app_assoc. reflexivity. }
    unfold rfc_nonce in En. destruct (d_iv (cs_r x)) as [iv|] eqn:E1; [|discriminate]. destruct (d_seq (cs_r x)) as [q|] eqn:E2; [|discriminate].
    assert (be_bytes 12 (N.lxor iv (q_next q)) = n) as <- by congruence. pose proof (H7 k iv q Ek E1 E2) as Op. rewrite N.add_0_r in Op.
    destruct H8 as (z & W). cbv zeta in Er. unfold P_Alert.header in Er. rewrite Op, W in Er.
    assert (Nz : Nb ct <> x00). { intro Z. apply (f_equal bN) in Z. rewrite bN_Nb in Z by lia. cbn in Z. lia. }
    rewrite inner_wraps in Er by exact Nz. rewrite bN_Nb in Er by lia. apply N.eqb_neq in H5. rewrite H5 in Er.
    exists (cset_cipher (Some (bumped x)) (cset_in (b0 ++ rest) c)), b0. split; [exact Er|]. split; [reflexivity|].
    split; [apply (packed_bump C c (cset_cipher (Some (bumped x)) (cset_in (b0 ++ rest) c)) x H1 eq_refl eq_refl _ _ _ H9); reflexivity|].
    split; [apply (read_record_iv _ _ _ _ Er Iv)|]. exists (Some (bumped x)), (b0 ++ rest). split; [reflexivity|]. right. exists x. auto.
Qed.
Lemma moved_frag c c' : moved c c' -> max_frag c' = max_frag c.
Proof. intros (o & v & -> & _). reflexivity. Qed.
Lemma packed_inhs C c v i l b : packed C c i l b -> packed C (cset_inhs v c) i l b.
Proof.
  induction 1 as [i|i ct f l b H1 H2 H3 H4 H5 IH|i ct f l b x p inner H1 H2 H3 H4 H5 H6 H7 H8 H9 IH]; [constructor | constructor; assumption |].
  apply (packed_sealed C (cset_inhs v c) i ct f l b x p inner); assumption.
Qed.

(* what reading records leaves as it was *)
Definition calm (c c' : conn) : Prop := c_state c' = c_state c /\ c_out c' = c_out c /\ (room c -> room c').
Lemma calm_trans a b c : calm a b -> calm b c -> calm a c.
Proof. intros (A1 & A2 & A3) (B1 & B2 & B3). repeat split; [congruence | congruence | auto]. Qed.
Lemma moved_calm c c' : moved c c' -> calm c c'.
Proof. intro H. pose proof (moved_room _ _ H). destruct H as (o & v & -> & _). repeat split; assumption. Qed.

(* --- a message in pieces -------------------------------------------------- *)
Definition hsrec (f : bytes) : N * bytes := (CT_HANDSHAKE, f).
Lemma fill_packed C rest : forall l n c b, ivI c -> valid_mfl (max_frag c) -> packed C c 0 (map hsrec l) b -> Forall (fun f => f <> []) l ->
  c_in c = b ++ rest -> 4 <= blen (c_inhs c) -> hs_len (c_inhs c) = blen (c_inhs c ++ concat l) - 4 -> (length l < n)%nat ->
  exists c', fill_handshake n C c = (Ok true, c') /\ c_in c' = rest /\ c_inhs c' = c_inhs c ++ concat l /\ calm c c'.
Proof.
  induction l as [|f l IH]; intros n c b Iv V P F Hc Li Hl Ln.
  - cbn [map concat] in *. inversion P; subst. rewrite app_nil_r in *. exists c. rewrite fill_done.
    + split; [reflexivity|]. split; [exact Hc|]. split; [reflexivity|]. repeat split; auto.
    + unfold wanting. apply N.ltb_ge. lia.
  - inversion F as [|? ? F0 F2]; subst. destruct n as [|n]; [lia|].
    assert (Fp : 1 <= blen f) by (destruct f; [congruence | unfold blen; cbn [length]; lia]).
    cbn [concat map] in *. destruct (packed_read C c _ _ _ b rest Iv V P Hc) as (c1 & b1 & E & I1 & P1 & Iv1 & Mv).
    rewrite fill_more.
    2:{ unfold wanting. apply N.ltb_lt. rewrite Hl, !blen_app. lia. }
    rewrite E. change (negb (CT_HANDSHAKE =? CT_HANDSHAKE)) with false. cbv iota.
    pose proof (rec_inhs _ _ _ _ E) as Eh.
    destruct (IH n (cset_inhs (c_inhs c1 ++ f) c1) b1) as (c2 & A & B & D & K).
    + exact Iv1.
    + change (max_frag (cset_inhs ?v c1)) with (max_frag c1). rewrite (moved_frag _ _ Mv). exact V.
    + apply packed_inhs. exact P1.
    + exact F2.
    + exact I1.
    + cbn [c_inhs cset_inhs]. rewrite Eh, blen_app. lia.
    + cbn [c_inhs cset_inhs]. rewrite Eh. rewrite P_Honest.hs_len_app by exact Li. rewrite <- app_assoc. exact Hl.
    + cbn [length] in Ln. lia.
    + exists c2. split; [exact A|]. split; [exact B|]. split; [rewrite D; cbn [c_inhs cset_inhs]; rewrite Eh, <- app_assoc; reflexivity|].
      apply (calm_trans _ _ _ (moved_calm _ _ Mv) K).
Qed.
Lemma whole_len m : whole m -> 4 <= blen m /\ hs_len m = blen m - 4.
Proof.
  intros (ty & body & -> & L). rewrite blen_cons, blen_app, blen_be_bytes. split; [lia|].
  unfold hs_len. change (bdrop 1 (ty :: ?v)) with v. rewrite (btake_app_exact' 3) by (symmetry; apply blen_be_bytes).
  rewrite of_be_bytes by exact L. lia.
Qed.
Lemma content_packed C c f l b rest : ivI c -> valid_mfl (max_frag c) -> c_inhs c = [] -> packed C c 0 (map hsrec (f :: l)) b -> Forall (fun f => f <> []) l ->
  4 <= blen f -> whole (f ++ concat l) -> c_in c = b ++ rest ->
  exists c', read_next_content C c = (Ok (Some (CT_HANDSHAKE, f ++ concat l)), c') /\ c_in c' = rest /\ c_inhs c' = [] /\ calm c c'.
Proof.
  intros Iv V Hi P F L4 W Hc. apply whole_len in W as (Lw & Hl). cbn [map] in P.
  destruct (packed_read C c _ _ _ b rest Iv V P Hc) as (c1 & b1 & E & I1 & P1 & Iv1 & Mv). pose proof (rec_inhs _ _ _ _ E) as Eh.
  rewrite content_eq, E. cbn [after_record]. rewrite Eh, Hi.
  change (is_nil [] && negb (CT_HANDSHAKE =? CT_HANDSHAKE)) with false. change (negb (CT_HANDSHAKE =? CT_HANDSHAKE)) with false. cbv iota.
  cbn [app]. set (c2 := cset_inhs f c1). change (c_inhs c2) with f.
  replace (blen f <? 4) with false by (symmetry; apply N.ltb_ge; exact L4).
  destruct (fill_packed C rest l (S (length (c_in c2))) c2 b1) as (c3 & A & B & D & K).
  - exact Iv1.
  - change (max_frag c2) with (max_frag c1). rewrite (moved_frag _ _ Mv). exact V.
  - apply packed_inhs. exact P1.
  - exact F.
  - exact I1.
  - exact L4.
  - change (c_inhs c2) with f. rewrite <- Hl. symmetry. apply P_Honest.hs_len_app. exact L4.
  - change (c_in c2) with (c_in c1). rewrite I1, app_length. pose proof (packed_len _ _ _ _ _ P1) as K. rewrite map_length in K. lia.
  - rewrite A. cbn [after_fill]. rewrite D. change (c_inhs c2) with f.
    replace (hs_len _ <? _) with false by (symmetry; apply N.ltb_ge; lia). exists (cset_inhs [] c3). split; [reflexivity|]. split; [exact B|]. split; [reflexivity|].
    apply (calm_trans _ _ _ (moved_calm _ _ Mv) K).
Qed.

(* --- more than a message in a record -------------------------------------- *)
Lemma content_together C c f l b rest : ivI c -> valid_mfl (max_frag c) -> c_inhs c = [] -> packed C c 0 (hsrec f :: l) b ->
  4 <= blen f -> 4 + hs_len f < blen f -> c_in c = b ++ rest ->
  exists c', read_next_content C c = (Err XTooMuch, c') /\ c_state c' = c_state c /\ c_out c' = c_out c /\ (room c -> room c').
Proof.
  intros Iv V Hi P L4 L Hc.
  destruct (packed_read C c _ _ _ b rest Iv V P Hc) as (c1 & b1 & E & I1 & P1 & Iv1 & Mv). pose proof (rec_inhs _ _ _ _ E) as Eh.
  rewrite content_eq, E. cbn [after_record]. rewrite Eh, Hi.
  change (is_nil [] && negb (CT_HANDSHAKE =? CT_HANDSHAKE)) with false. change (negb (CT_HANDSHAKE =? CT_HANDSHAKE)) with false. cbv iota.
  cbn [app]. set (c2 := cset_inhs f c1). change (c_inhs c2) with f.
  replace (blen f <? 4) with false by (symmetry; apply N.ltb_ge; exact L4).
  rewrite fill_done by (unfold wanting; change (c_inhs c2) with f; apply N.ltb_ge; lia).
  cbn [after_fill]. change (c_inhs c2) with f. replace (hs_len f <? blen f - 4) with true by (symmetry; apply N.ltb_lt; lia).
  exists c2. split; [reflexivity|]. pose proof (moved_room _ _ Mv) as K. destruct Mv as (o & v & -> & _). auto.
Qed.
(* --- a record of another type in the middle of a message ------------------ *)
Lemma content_between C c ct f l b rest : ivI c -> valid_mfl (max_frag c) -> c_inhs c <> [] -> packed C c 0 ((ct, f) :: l) b -> ct <> CT_HANDSHAKE ->
  c_in c = b ++ rest ->
  exists c', read_next_content C c = (Err (XAlert UNEXPECTED_MESSAGE), c') /\ c_state c' = c_state c /\ c_out c' = c_out c /\ (room c -> room c').
Proof.
  intros Iv V Hi P Nc Hc. apply N.eqb_neq in Nc.
  destruct (packed_read C c _ _ _ b rest Iv V P Hc) as (c1 & b1 & E & I1 & P1 & Iv1 & Mv). pose proof (rec_inhs _ _ _ _ E) as Eh.
  rewrite content_eq, E. cbn [after_record]. rewrite Eh, Nc. destruct (c_inhs c) as [|b0 v0]; [contradiction|]. cbn [is_nil andb negb].
  exists c1. split; [reflexivity|]. pose proof (moved_room _ _ Mv) as K. destruct Mv as (o & v & -> & _). auto.
Qed.
Lemma one_raises C c e c' : read_next_content C c = (Err e, c') -> receive_one C c = (Err e, c').
Proof. intro H. unfold receive_one, bind. rewrite H. reflexivity. Qed.
Lemma packed_in C c v i l b : packed C c i l b -> packed C (cset_in v c) i l b.
Proof.
  induction 1 as [i|i ct f l b H1 H2 H3 H4 H5 IH|i ct f l b x p inner H1 H2 H3 H4 H5 H6 H7 H8 H9 IH]; [constructor | constructor; assumption |].
  apply (packed_sealed C (cset_in v c) i ct f l b x p inner); assumption.
Qed.
Lemma packed_ne C c i p l b rest : packed C c i (p :: l) b -> b ++ rest <> [].
Proof. intro H. inversion H; discriminate. Qed.

Section Fails.
Variables (C : crypto) (g : config) (c : conn).
Hypothesis As : aead_sized C.
Hypothesis R : reachable C g c.
Hypothesis Ci : c_in c = [].
Hypothesis Cr : can_receive (c_state c) = true.
Hypothesis Cs : can_send (c_state c) = true.
Hypothesis Rm : room c.
Lemma fails d e : d <> [] -> (exists c1, receive_one C (cset_in d c) = (Err e, c1) /\ c_state c1 = c_state c /\ c_out c1 = c_out c /\ room c1) ->
  exists c' r, receive_data C d c = (Err e, c') /\ c_state c' = Failed /\ alert_record C (alert_for e) r /\ c_out c' = c_out c ++ r.
Proof.
  intros Dn (c1 & E & S1 & O1 & R1).
  destruct (receive_alert C g c d e c1 As R Cr Dn) as (c' & H1 & H2 & r & A & O); try assumption; [rewrite Ci; apply raises_now; exact E | congruence |].
  exists c', r. rewrite O, O1. auto.
Qed.
Lemma together_fails f l b rest : c_inhs c = [] -> packed C c 0 (hsrec f :: l) b -> 4 <= blen f -> 4 + hs_len f < blen f ->
  exists c' r, receive_data C (b ++ rest) c = (Err XTooMuch, c') /\ c_state c' = Failed /\ alert_record C INTERNAL_ERROR r /\ c_out c' = c_out c ++ r.
Proof.
  intros Hi P L4 L. apply (fails (b ++ rest) XTooMuch (packed_ne _ _ _ _ _ _ rest P)).
  destruct (content_together C (cset_in (b ++ rest) c) f l b rest) as (c1 & E & S1 & O1 & R1); try assumption; try reflexivity;
    [apply (reachable_iv _ _ _ R) | apply (reachable_mfl _ _ _ R) | apply packed_in; exact P |].
  exists c1. split; [apply one_raises; exact E|]. auto.
Qed.
Lemma between_fails ct f l b rest : c_inhs c <> [] -> packed C c 0 ((ct, f) :: l) b -> ct <> CT_HANDSHAKE ->
  exists c' r, receive_data C (b ++ rest) c = (Err (XAlert UNEXPECTED_MESSAGE), c') /\ c_state c' = Failed /\
    alert_record C UNEXPECTED_MESSAGE r /\ c_out c' = c_out c ++ r.
Proof.
  intros Hi P Nc. apply (fails (b ++ rest) (XAlert UNEXPECTED_MESSAGE) (packed_ne _ _ _ _ _ _ rest P)).
  destruct (content_between C (cset_in (b ++ rest) c) ct f l b rest) as (c1 & E & S1 & O1 & R1); try assumption; try reflexivity;
    [apply (reachable_iv _ _ _ R) | apply (reachable_mfl _ _ _ R) | apply packed_in; exact P |].
  exists c1. split; [apply one_raises; exact E|]. auto.
Qed.
End Fails.
