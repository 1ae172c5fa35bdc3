From Verif Require Import Base P_Base Iana Crypto Config Serial Ext Msg Hkdf Cipher Transcript Conn S_Hist S_Conn S_Send S_Nonce S_Alert S_Pack S_Split S_Ccs P_Monad P_Frame P_Rec P_Buf P_Send P_Hist P_Wire P_Nonce P_Alert P_Alert2 P_Split P_Memory P_Inner P_Pack P_Blind P_Ccs P_Ccs2.
From Verif Require P_Honest P_Deliver.
Local Open Scope N_scope.

(* --- too long ------------------------------------------------------------------ *)
Lemma header_parts ct v l rest : l < 65536 -> let i := [ct; fst v; snd v; Nb (l / 256); Nb (l mod 256)] ++ rest in
  record_length i = l /\ blen i = 5 + blen rest.
Proof.
  intros L. cbv zeta. split.
  - unfold record_length. change (btake 2 (bdrop 3 ([ct; fst v; snd v; Nb (l / 256); Nb (l mod 256)] ++ rest))) with [Nb (l / 256); Nb (l mod 256)].
    unfold of_bytes. cbn [fold_left]. rewrite !bN_Nb; [|apply N.mod_lt; lia | apply N.div_lt_upper_bound; lia].
    pose proof (N.div_mod l 256 ltac:(lia)). lia.
  - rewrite blen_app. reflexivity.
Qed.
Section Long.
Variable C : crypto.
Variable g : config.
Variable c : conn.
Hypothesis As : aead_sized C.
Hypothesis R : reachable C g c.
Hypothesis Ci : c_in c = [].
Hypothesis Cr : can_receive (c_state c) = true.
Hypothesis Cs : can_send (c_state c) = true.
Hypothesis Rm : room c.
Lemma too_long ct v l rest : l < 65536 -> max_record c < l ->
  exists c' r, receive_data C ([ct; fst v; snd v; Nb (l / 256); Nb (l mod 256)] ++ rest) c = (Err XAttr, c') /\ c_state c' = Failed /\
    alert_record C INTERNAL_ERROR r /\ c_out c' = c_out c ++ r.
Proof.
  intros L M. pose proof (reachable_mfl _ _ _ R) as V. pose proof (valid_mfl_range _ V) as Vr.
  set (i := [ct; fst v; snd v; Nb (l / 256); Nb (l mod 256)] ++ rest).
  destruct (header_parts ct v l rest L) as [P1 P2]. fold i in P1, P2.
  apply (fails C g c As R Ci Cr Cs i XAttr); [discriminate|].
  assert (Sk : skip_ccs i = i).
  { destruct (skip_cases _ i (le_n _)) as [E|(b1 & b2 & r & E & _)]; [exact E|]. exfalso. rewrite E in P1.
    change (record_length (x14 :: b1 :: b2 :: x00 :: x01 :: x01 :: r)) with 1 in P1. unfold max_record in M. lia. }
  exists (cset_in i c). split; [|split; [reflexivity | split; [reflexivity | exact Rm]]].
  apply one_raises. rewrite content_eq, read_record_eq. cbv zeta. change (c_in (cset_in i c)) with i. rewrite Sk, P1, P2.
  assert (5 + blen rest <? 5 = false) as -> by (apply N.ltb_ge; lia).
  change (rec_max (cset_in i c)) with (max_record c). rewrite (proj2 (N.ltb_lt _ _) M). destruct c; reflexivity.
Qed.
End Long.

(* --- the version ---------------------------------------------------------------- *)
Lemma version_ignored C c ct v v' f : c_in c = [] -> dec_on c = false -> valid_mfl (max_frag c) -> blen f <= max_frag c ->
  receive_data C (framed ct v f) c = receive_data C (framed ct v' f) c.
Proof.
  intros Ci Dn V L. pose proof (valid_mfl_range _ V) as Vr. assert (Lf : blen f < 65536) by lia.
  destruct (can_receive (c_state c)) eqn:Cr.
  2:{ unfold receive_data. cbn [is_nil framed app]. rewrite !bind_get, Cr. reflexivity. }
  assert (E : read_next_record C (ext (framed ct v f) c) = read_next_record C (ext (framed ct v' f) c)).
  { rewrite !read_record_eq. cbv zeta. unfold with_more. rewrite Ci. cbn [app]. 
    change (c_in (cset_in (framed ct v f) c)) with (framed ct v f). change (c_in (cset_in (framed ct v' f) c)) with (framed ct v' f).
    destruct (list_eq_dec Byte.byte_eq_dec f [x01]) as [->|Nf].
    { destruct (Byte.byte_eq_dec ct x14) as [->|Nc]; [destruct c; reflexivity|].
      assert (S1 : forall w, skip_ccs (framed ct w [x01]) = framed ct w [x01]) by (intro w; destruct ct; try reflexivity; congruence).
      rewrite !S1. unfold unprotect. rewrite !bind_get. cbv zeta.
      change (dec_on (cset_in (bdrop (rec_len (framed ct v [x01]) + 5) (framed ct v [x01])) (cset_in (framed ct v [x01]) c))) with (dec_on c).
      change (dec_on (cset_in (bdrop (rec_len (framed ct v' [x01]) + 5) (framed ct v' [x01])) (cset_in (framed ct v' [x01]) c))) with (dec_on c).
      rewrite Dn. change (rec_len (framed ct v [x01])) with 1. change (rec_len (framed ct v' [x01])) with 1.
      change (rec_max (cset_in (framed ct v [x01]) c)) with (rec_max c). change (rec_max (cset_in (framed ct v' [x01]) c)) with (rec_max c).
      assert (rec_max c <? 1 = false) as -> by (apply N.ltb_ge; unfold rec_max; lia).
      destruct c; reflexivity. }
    assert (Sk : forall w, skip_ccs (framed ct w f) = framed ct w f).
    { intro w. destruct (record_skip (framed ct w f) []) as [[w' Z]|Z]; [exists ct, w, f; split; [exact Lf | reflexivity] | |].
      - unfold framed in Z. cbn [app] in Z. injection Z. intros. contradiction.
      - rewrite app_nil_r in Z. exact Z. }
    rewrite !Sk. destruct (framed_parts ct v f [] Lf) as (P1 & P2 & P3 & P4 & P5 & P6). destruct (framed_parts ct v' f [] Lf) as (Q1 & Q2 & Q3 & Q4 & Q5 & Q6).
    rewrite app_nil_r in *. rewrite P1, P2, P3, Q1, Q2, Q3. change (blen []) with 0.
    assert (5 + blen f + 0 <? 5 = false) as -> by (apply N.ltb_ge; lia).
    assert (5 + blen f + 0 - 5 <? blen f = false) as -> by (apply N.ltb_ge; lia).
    change (rec_max (cset_in (framed ct v f) c)) with (rec_max c). change (rec_max (cset_in (framed ct v' f) c)) with (rec_max c).
    assert (rec_max c <? blen f = false) as -> by (apply N.ltb_ge; unfold rec_max; lia).
    unfold unprotect. rewrite !bind_get. cbv zeta. rewrite P1, P4, P6, Q1, Q4, Q6.
    change (dec_on (cset_in [] (cset_in (framed ct v f) c))) with (dec_on c). change (dec_on (cset_in [] (cset_in (framed ct v' f) c))) with (dec_on c). rewrite Dn.
    destruct c; reflexivity. }
  assert (G : guarded C (receive_one C) (ext (framed ct v f) c) = guarded C (receive_one C) (ext (framed ct v' f) c)).
  { unfold guarded, receive_one, bind. rewrite !content_eq, E. reflexivity. }
  pose proof (loop_terminates C (length (c_in (ext (framed ct v f) c))) (ext (framed ct v f) c) (le_n _)) as T. set (x := receive_loop _ C _) in T.
  rewrite (receive_loops C (framed ct v f) c x) by (try discriminate; assumption).
  symmetry. apply receive_loops; [discriminate | exact Cr|].
  inversion T as [? ? H|? ? ? H|? ? ? H H']; subst; rewrite G in H; [apply loops_stop | apply loops_err | eapply loops_more]; eassumption.
Qed.

(* --- inner plaintexts longer than the limit --------------------------------------- *)
Lemma long_delivered C c f b : ivI c -> valid_mfl (max_frag c) -> c_in c = [] -> c_inhs c = [] -> can_receive (c_state c) = true -> established (c_state c) = true ->
  packed C c 0 [(CT_APPDATA, f)] b -> exists r c', receive_data C b c = (r, c') /\ c_app c' = c_app c ++ f /\ c_state c' = c_state c.
Proof.
  intros Iv V Ci Hi Cr Es P.
  assert (Hb : b <> []) by (pose proof (packed_ne _ _ _ _ _ _ [] P) as N; rewrite app_nil_r in N; exact N).
  destruct (packed_read C (ext b c) CT_APPDATA f [] b []) as (c1 & b' & E & Ei & P' & _ & Mv); try assumption.
  { unfold with_more. apply packed_in. exact P. }
  { unfold with_more. cbn [c_in cset_in]. rewrite Ci, app_nil_r. reflexivity. }
  inversion P'; subst. cbn [app] in Ei. clear P'.
  destruct Mv as (o & w & Ec & _). assert (w = []) as -> by (rewrite Ec in Ei; exact Ei).
  assert (Hi1 : c_inhs c1 = []) by (rewrite Ec; exact Hi). assert (Es1 : established (c_state c1) = true) by (rewrite Ec; exact Es).
  assert (G : guarded C (receive_one C) (ext b c) = (Ok true, cset_app (c_app c1 ++ f) c1)).
  { unfold guarded, receive_one. unfold bind at 1. rewrite content_eq, E. cbn [after_record]. rewrite Hi1. cbn [is_nil andb negb N.eqb].
    change (negb (CT_APPDATA =? CT_HANDSHAKE)) with true. cbv iota. unfold handle_content. unfold bind at 1. rewrite bind_get.
    rewrite parse_appdata. unfold bind, lift, ret.
    rewrite (P_Deliver.process_appdata C f c1 Es1). reflexivity. }
  set (c2 := cset_app (c_app c1 ++ f) c1) in *.
  assert (S : loops C c2 (Ok tt, c2)).
  { apply loops_stop. unfold guarded, receive_one, bind. rewrite content_eq, read_record_eq. cbv zeta. change (c_in c2) with (c_in c1). rewrite Ei.
    cbn [skip_ccs]. cbn. f_equal. subst c2. rewrite Ec. destruct c; reflexivity. }
  exists (rekeying c2), c2. split.
  - apply (receive_loops C b c (Ok tt, c2) Hb Cr). eapply loops_more; [exact G | exact S].
  - subst c2. rewrite Ec. split; reflexivity.
Qed.
