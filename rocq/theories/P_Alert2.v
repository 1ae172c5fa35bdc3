(* Alerts received in the clear or sealed, of any level. *)
From Verif Require Import Base P_Base Iana Crypto Config Serial Ext Msg Hkdf Cipher Conn S_Hist S_Conn S_Send S_Nonce S_Alert P_Monad P_Frame P_Rec P_Buf P_Send P_Hist P_Wire P_Nonce P_Alert.

Definition alert_content (C : crypto) (lv code : byte) : res content :=
  if memN (bN lv) [WARNING; FATAL] then Ok (KAlert (bN lv) (bN code)) else Err (XAlert ILLEGAL_PARAMETER).
Lemma parse_alert_any C pct lv code : parse_content C pct CT_ALERT [lv; code] = alert_content C lv code.
Proof. destruct lv; destruct code; reflexivity. Qed.

Section Alerted.
Variables (C : crypto) (g : config) (c : conn) (d : bytes) (c1 : conn) (lv code : byte).
Hypothesis As : aead_sized C.
Hypothesis R : reachable C g c.
Hypothesis Cr : can_receive (c_state c) = true.
Hypothesis Cs : can_send (c_state c) = true.
Hypothesis Dn : d <> [].
Hypothesis Er : read_next_record C (cset_in (c_in c ++ d) c) = (Ok (Some (CT_ALERT, [lv; code])), c1).
Hypothesis E1 : c_state c1 = c_state c.
Hypothesis E2 : c_inhs c1 = [].
Hypothesis Eo : c_out c1 = c_out c.
Hypothesis Rm : room c1.

Lemma alert_process k : (forall v, k <> KAppData v) -> (forall h, k <> KHandshake h) -> process C k c1 = base_process k c1.
Proof.
  intros Ka Kh. unfold process. rewrite bind_get. rewrite E1.
  destruct (c_state c); try discriminate Cr; try discriminate Cs;
    try match goal with H : can_receive (Closed ?f _) = true |- _ => destruct f; [|discriminate Cr] end; destruct k; try reflexivity;
    try (exfalso; eapply Ka; reflexivity); try (exfalso; eapply Kh; reflexivity).
Qed.
Lemma alert_one : receive_one C (cset_in (c_in c ++ d) c) =
  match alert_content C lv code with
  | Err e => (Err e, c1)
  | Ok k => match base_process k c1 with (Ok _, c2) => (Ok true, c2) | (Err e, c2) => (Err e, c2) end
  end.
Proof.
  unfold receive_one, read_next_content, bind. rewrite Er. unfold get. rewrite E2. cbn [is_nil andb negb].
  change (CT_ALERT =? CT_HANDSHAKE) with false. cbn [negb]. unfold ret.
  unfold handle_content. rewrite bind_get. rewrite parse_alert_any. unfold alert_content.
  destruct (memN (bN lv) [WARNING; FATAL]) eqn:M; [|reflexivity].
  change (bind (lift (Ok ?v)) ?k c1) with (k v c1). cbv beta iota. change (bind (ret tt) ?k c1) with (k tt c1). cbv beta.
  rewrite alert_process by discriminate. destruct (base_process _ c1) as [[]]; reflexivity.
Qed.
Lemma alert_fails : lv <> x01 -> bN code <> CLOSE_NOTIFY ->
  exists e c', receive_data C d c = (Err e, c') /\ c_state c' = Failed /\
    (lv = x02 -> memN (bN code) alert_descriptions = true -> bN code <> USER_CANCELED -> e = XAlert (bN code)) /\
    exists r, alert_record C (alert_for e) r /\ c_out c' = c_out c ++ r.
Proof.
  intros Nl Nc. pose proof alert_one as H. unfold alert_content in H.
  assert (exists e, receive_one C (cset_in (c_in c ++ d) c) = (Err e, c1) /\
    (lv = x02 -> memN (bN code) alert_descriptions = true -> bN code <> USER_CANCELED -> e = XAlert (bN code))) as (e & He & Hx).
  { destruct (memN (bN lv) [WARNING; FATAL]) eqn:M.
    - assert (lv = x02) as El. { destruct lv; try discriminate M; [contradiction|reflexivity]. }
      rewrite El in H. cbn [base_process] in H. apply N.eqb_neq in Nc. rewrite Nc in H. change (bN x02 =? WARNING) with false in H. cbv iota in H.
      destruct (memN (bN code) alert_descriptions) eqn:Md.
      + destruct (bN code =? USER_CANCELED) eqn:Eu; cbn [andb negb] in H.
        * exists XType. split; [exact H|]. intros _ _ Nu. apply N.eqb_eq in Eu. contradiction.
        * exists (XAlert (bN code)). split; [exact H | reflexivity].
      + cbn [andb] in H. exists XType. split; [exact H|]. discriminate.
    - exists (XAlert ILLEGAL_PARAMETER). split; [exact H|]. intros ->. discriminate M. }
  destruct (receive_alert C g c d e c1 As R Cr Dn (raises_now _ _ _ _ He)) as (c' & H1 & H2 & r & A & O); try assumption; [rewrite E1; exact Cs|].
  exists e, c'. split; [exact H1|]. split; [exact H2|]. split; [exact Hx|]. exists r. split; [exact A|]. rewrite O, Eo. reflexivity.
Qed.
End Alerted.

Lemma read_clear C c ct f : valid_mfl (max_frag c) -> dec_on c = false -> ct < 256 -> ct <> CT_CCS -> blen f <= max_frag c -> c_in c = record ct f ->
  read_next_record C c = (Ok (Some (ct, f)), cset_in [] c).
Proof.
  intros V Dn Lc Nc Lf Ei. pose proof (valid_mfl_range _ V) as Vr.
  rewrite read_record_eq. cbv zeta. rewrite Ei. rewrite <- (app_nil_r (record _ _)).
  destruct (record_parts ct f []) as (P1 & P2 & P3 & P4 & P5 & P6); [lia|].
  rewrite record_head by assumption. rewrite P4, P1. change (blen (@nil byte)) with 0.
  assert (5 + blen f + 0 <? 5 = false) as -> by (apply N.ltb_ge; lia).
  unfold rec_max. rewrite Dn.
  assert (max_frag c + 0 <? blen f = false) as -> by (apply N.ltb_ge; lia).
  assert (5 + blen f + 0 - 5 <? blen f = false) as -> by (apply N.ltb_ge; lia).
  unfold unprotect. rewrite bind_get. cbv zeta. rewrite P1, P2, P3, P6.
  change (dec_on (cset_in [] c)) with (dec_on c). rewrite Dn.
  unfold bind, ret. assert (of_bytes [Nb ct] = ct) as -> by (cbn; rewrite bN_Nb by exact Lc; lia). apply N.eqb_neq in Nc. rewrite Nc. reflexivity.
Qed.

Lemma clear_alert C g c lv code : aead_sized C -> reachable C g c -> idle c -> can_receive (c_state c) = true -> can_send (c_state c) = true ->
  dec_on c = false -> room c -> lv <> x01 -> bN code <> CLOSE_NOTIFY ->
  exists e c', receive_data C (record CT_ALERT [lv; code]) c = (Err e, c') /\ c_state c' = Failed /\
    (lv = x02 -> memN (bN code) alert_descriptions = true -> bN code <> USER_CANCELED -> e = XAlert (bN code)) /\
    exists r, alert_record C (alert_for e) r /\ c_out c' = c_out c ++ r.
Proof.
  intros As R [Id1 Id2] Cr Cs Dn Rm Nl Nc. pose proof (reachable_mfl _ _ _ R) as V. pose proof (valid_mfl_range _ V) as Vr.
  set (d := record CT_ALERT [lv; code]). set (c0 := cset_in (c_in c ++ d) c).
  apply (alert_fails C g c d (cset_in [] c0) lv code); try assumption; try reflexivity; [discriminate|].
  apply read_clear; try assumption; try reflexivity; try discriminate; [change (blen [lv; code]) with 2; change (max_frag c0) with (max_frag c); lia|].
  unfold c0. cbn [c_in cset_in]. rewrite Id1. reflexivity.
Qed.
Lemma sealed_alert C g c x p inner lv code rest : aead_sized C -> reachable C g c -> idle c -> can_receive (c_state c) = true -> can_send (c_state c) = true ->
  c_cipher c = Some x -> dec_on c = true -> room c -> room_r c -> blen p <= max_frag c + 256 ->
  (forall k n, d_key (cs_r x) = Some k -> rfc_nonce (cs_r x) = Some n -> cr_open C (cs_suite x) k n p (header p) = Some inner) ->
  wraps CT_ALERT [lv; code] inner -> lv <> x01 -> bN code <> CLOSE_NOTIFY ->
  exists e c', receive_data C (record CT_APPDATA p ++ rest) c = (Err e, c') /\ c_state c' = Failed /\
    (lv = x02 -> memN (bN code) alert_descriptions = true -> bN code <> USER_CANCELED -> e = XAlert (bN code)) /\
    exists r, alert_record C (alert_for e) r /\ c_out c' = c_out c ++ r.
Proof.
  intros As R [Id1 Id2] Cr Cs Ex Dn Rm Rr Lp Op (z & W) Nl Nc. pose proof (reachable_mfl _ _ _ R) as V.
  set (d := record CT_APPDATA p ++ rest). set (c0 := cset_in (c_in c ++ d) c).
  destruct (read_protected C c0 x p rest (reachable_iv _ _ _ R) Ex Dn Rr V Lp) as (k & n & Ek & En & Er).
  { cbn. rewrite Id1. reflexivity. }
  cbv zeta in Er. rewrite (Op k n Ek En), W, inner_wraps in Er by discriminate. change (bN (Nb CT_ALERT)) with CT_ALERT in Er. change (CT_ALERT =? CT_CCS) with false in Er. cbv iota in Er.
  apply (alert_fails C g c d (cset_cipher (Some (bumped x)) (cset_in rest c0)) lv code); try assumption; try reflexivity; [discriminate|].
  intros y Ey Eny. cbn in Ey. injection Ey; intros <-. apply (Rm x Ex). unfold enc_on in *. rewrite Ex. cbn in Eny. exact Eny.
Qed.
(* a warning is ignored *)
Lemma clear_warning C g c code : reachable C g c -> idle c -> can_receive (c_state c) = true -> can_send (c_state c) = true ->
  dec_on c = false -> memN (bN code) alert_descriptions = true -> bN code <> CLOSE_NOTIFY ->
  receive_one C (cset_in (record CT_ALERT [x01; code]) c) = (Ok true, cset_in [] c).
Proof.
  intros R [Id1 Id2] Cr Cs Dn Md Nc. pose proof (reachable_mfl _ _ _ R) as V. pose proof (valid_mfl_range _ V) as Vr.
  set (d := record CT_ALERT [x01; code]).
  assert (E0 : cset_in d c = cset_in (c_in c ++ d) c) by (rewrite Id1; reflexivity). rewrite E0.
  rewrite (alert_one C c d (cset_in [] (cset_in (c_in c ++ d) c)) x01 code Cr Cs); try reflexivity; try assumption.
  - unfold alert_content. change (memN (bN x01) [WARNING; FATAL]) with true. cbv iota. cbn [base_process]. apply N.eqb_neq in Nc. rewrite Nc.
    change (bN x01 =? WARNING) with true. cbv iota. rewrite Md. reflexivity.
  - apply read_clear; try assumption; try reflexivity; try discriminate.
    + change (blen [x01; code]) with 2. change (max_frag (cset_in (c_in c ++ d) c)) with (max_frag c). lia.
    + cbn [c_in cset_in]. rewrite Id1. reflexivity.
Qed.

Lemma sealed_fatal C g c x p inner code rest : aead_sized C -> reachable C g c -> idle c -> can_receive (c_state c) = true -> can_send (c_state c) = true ->
  c_cipher c = Some x -> dec_on c = true -> room c -> room_r c -> blen p <= max_frag c + 256 ->
  (forall k n, d_key (cs_r x) = Some k -> rfc_nonce (cs_r x) = Some n -> cr_open C (cs_suite x) k n p (header p) = Some inner) ->
  wraps CT_ALERT [x02; code] inner -> memN (bN code) alert_descriptions = true -> bN code <> CLOSE_NOTIFY -> bN code <> USER_CANCELED ->
  exists c', receive_data C (record CT_APPDATA p ++ rest) c = (Err (XAlert (bN code)), c') /\ c_state c' = Failed /\
    exists r, alert_record C (alert_for (XAlert (bN code))) r /\ c_out c' = c_out c ++ r.
Proof.
  intros As R Id Cr Cs Ex Dn Rm Rr Lp Op W Md Nc Nu.
  destruct (sealed_alert C g c x p inner x02 code rest As R Id Cr Cs Ex Dn Rm Rr Lp Op W) as (e & c' & A & B & D & E); [discriminate | exact Nc|].
  rewrite (D eq_refl Md Nu) in *. exists c'. split; [exact A|]. split; [exact B | exact E].
Qed.
