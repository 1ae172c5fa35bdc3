From Verif Require Import Base P_Base Iana Crypto Config Serial Ext Msg Hkdf Cipher Transcript Conn S_Hist S_Conn S_Send S_Nonce S_Alert S_Pack S_Split S_Ccs P_Monad P_Frame P_Rec P_Buf P_Send P_Hist P_Wire P_Nonce P_Alert P_Alert2 P_Split P_Memory P_Inner P_Pack P_Blind P_Ccs.
From Verif Require P_Honest.
Local Open Scope N_scope.

Lemma not_ccs v f : f <> [x01] -> ~ a_ccs (framed x14 v f).
Proof. intros H [w E]. unfold framed in E. cbn [app] in E. injection E. intros. contradiction. Qed.
Section Bad.
Variable C : crypto.
Variable g : config.
Variable c : conn.
Hypothesis As : aead_sized C.
Hypothesis R : reachable C g c.
Hypothesis Ci : c_in c = [].
Hypothesis Cr : can_receive (c_state c) = true.
Hypothesis Cs : can_send (c_state c) = true.
Hypothesis Rm : room c.
Lemma bad_clear v f rest : dec_on c = false -> blen f <= max_frag c -> f <> [x01] ->
  exists c' r, receive_data C (framed x14 v f ++ rest) c = (Err (XAlert UNEXPECTED_MESSAGE), c') /\ c_state c' = Failed /\
    alert_record C UNEXPECTED_MESSAGE r /\ c_out c' = c_out c ++ r.
Proof.
  intros Dn L Nf. pose proof (reachable_mfl _ _ _ R) as V. pose proof (valid_mfl_range _ V) as Vr.
  apply (fails C g c As R Ci Cr Cs (framed x14 v f ++ rest) (XAlert UNEXPECTED_MESSAGE)); [discriminate|].
  assert (Lf : blen f < 65536) by lia.
  destruct (record_skip (framed x14 v f) rest) as [Z|Hs]; [exists x14, v, f; split; [exact Lf | reflexivity] | destruct (not_ccs v f Nf Z)|].
  destruct (framed_parts x14 v f rest Lf) as (P1 & P2 & P3 & P4 & P5 & P6).
  exists (cset_in rest c). split; [|split; [reflexivity | split; [reflexivity | exact Rm]]].
  apply one_raises. rewrite content_eq, read_record_eq. cbv zeta.
  change (c_in (cset_in (framed x14 v f ++ rest) c)) with (framed x14 v f ++ rest). rewrite Hs, P1, P2, P3.
  assert (5 + blen f + blen rest <? 5 = false) as -> by (apply N.ltb_ge; lia).
  unfold rec_max. change (dec_on (cset_in (framed x14 v f ++ rest) c)) with (dec_on c). rewrite Dn.
  change (max_frag (cset_in (framed x14 v f ++ rest) c)) with (max_frag c).
  assert (max_frag c + 0 <? blen f = false) as -> by (apply N.ltb_ge; lia).
  assert (5 + blen f + blen rest - 5 <? blen f = false) as -> by (apply N.ltb_ge; lia).
  unfold unprotect. rewrite bind_get. cbv zeta.
  change (dec_on (cset_in rest (cset_in (framed x14 v f ++ rest) c))) with (dec_on c). rewrite Dn, P6. unfold ret.
  change (of_bytes [x14] =? CT_CCS) with true. destruct c; reflexivity.
Qed.
Lemma bad_sealed x p inner f rest : c_cipher c = Some x -> dec_on c = true -> left_at x 0 -> blen p <= max_frag c + 256 ->
  opens_at C x 0 p inner -> wraps CT_CCS f inner ->
  exists c' r, receive_data C (record CT_APPDATA p ++ rest) c = (Err (XAlert UNEXPECTED_MESSAGE), c') /\ c_state c' = Failed /\
    alert_record C UNEXPECTED_MESSAGE r /\ c_out c' = c_out c ++ r.
Proof.
  intros Ex D La Lp Op (z & W). pose proof (reachable_mfl _ _ _ R) as V. pose proof (reachable_iv _ _ _ R) as Iv.
  apply (fails C g c As R Ci Cr Cs (record CT_APPDATA p ++ rest) (XAlert UNEXPECTED_MESSAGE)); [discriminate|].
  assert (Rr : room_r (cset_in (record CT_APPDATA p ++ rest) c)).
  { intros y Ey _. change (c_cipher (cset_in (record CT_APPDATA p ++ rest) c)) with (c_cipher c) in Ey. rewrite Ex in Ey. injection Ey; intros <-.
    destruct La as (lim & I & Q). exists lim. split; [exact I|]. intros q Eq. specialize (Q q Eq). lia. }
  destruct (read_protected C (cset_in (record CT_APPDATA p ++ rest) c) x p rest Iv Ex D Rr V Lp eq_refl) as (k & n & Ek & En & Er).
  unfold rfc_nonce in En. destruct (d_iv (cs_r x)) as [iv|] eqn:E1; [|discriminate]. destruct (d_seq (cs_r x)) as [q|] eqn:E2; [|discriminate].
  assert (be_bytes 12 (N.lxor iv (q_next q)) = n) as <- by congruence. pose proof (Op k iv q Ek E1 E2) as Op'. rewrite N.add_0_r in Op'.
  cbv zeta in Er. unfold P_Alert.header in Er. rewrite Op', W in Er.
  rewrite inner_wraps in Er by discriminate. change (bN (Nb CT_CCS) =? CT_CCS) with true in Er. cbv beta iota in Er.
  eexists. split; [apply one_raises; rewrite content_eq, Er; reflexivity|].
  split; [reflexivity|]. split; [reflexivity|].
  apply (moved_room c); [|exact Rm]. exists (Some (bumped x)), rest. split; [destruct c; reflexivity|]. right. exists x. auto.
Qed.
End Bad.
