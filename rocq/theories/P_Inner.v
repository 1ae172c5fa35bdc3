(* What becomes of a record once it is decrypted. *)
From Verif Require Import Base P_Base Iana Crypto Config Cipher Conn S_Hist S_Conn S_Send P_Monad P_Rec P_Send P_Alert.

Lemma record_inner C c x x' f plain rest :
  c_cipher c = Some x -> must_decrypt x = true -> c_in c = record CT_APPDATA f ++ rest ->
  blen f <= max_frag c + 256 -> blen f < 65536 ->
  decrypt C f (Nb CT_APPDATA :: x03 :: x03 :: be_bytes 2 (blen f)) x = (Ok plain, x') ->
  fst (read_next_record C c) =
  match inner_plaintext plain with
  | Ok (ct, b) => if ct =? CT_CCS then Err (XAlert UNEXPECTED_MESSAGE) else Ok (Some (ct, b))
  | Err e => Err e
  end.
Proof.
  intros Ex D Ei L1 L2 Hd. rewrite read_record_eq. cbv zeta. rewrite Ei.
  assert (skip_ccs (record CT_APPDATA f ++ rest) = record CT_APPDATA f ++ rest) as -> by (apply record_head; reflexivity || discriminate).
  destruct (record_parts CT_APPDATA f rest L2) as (R1 & R2 & R3 & R4 & R5 & R6). rewrite R1, R4.
  replace (5 + blen f + blen rest <? 5) with false by (symmetry; apply N.ltb_ge; lia).
  assert (Dn : dec_on c = true) by (unfold dec_on; rewrite Ex; exact D).
  unfold rec_max. rewrite Dn. replace (max_frag c + 256 <? blen f) with false by (symmetry; apply N.ltb_ge; lia).
  replace (5 + blen f + blen rest - 5 <? blen f) with false by (symmetry; apply N.ltb_ge; lia).
  unfold unprotect. rewrite bind_get.
  match goal with |- context [if dec_on ?k then _ else _] => change (dec_on k) with (dec_on c) end. rewrite Dn, R1, R2, R5.
  unfold on_cipher, bind, get, lift, modify. cbn [c_cipher cset_in]. rewrite Ex, Hd.
  destruct (inner_plaintext plain) as [[ct b]|e]; [|reflexivity].
  destruct (ct =? CT_CCS); reflexivity.
Qed.
(* all the padding is taken off, and nothing else *)
Lemma record_padded C c x x' f plain rest :
  c_cipher c = Some x -> must_decrypt x = true -> c_in c = record CT_APPDATA f ++ rest ->
  blen f <= max_frag c + 256 -> blen f < 65536 ->
  decrypt C f (Nb CT_APPDATA :: x03 :: x03 :: be_bytes 2 (blen f)) x = (Ok plain, x') ->
  (forall content ty n, ty <> x00 -> bN ty <> CT_CCS -> plain = content ++ ty :: repeat x00 n ->
     fst (read_next_record C c) = Ok (Some (bN ty, content))) /\
  (forall n, plain = repeat x00 n -> fst (read_next_record C c) = Err (XAlert UNEXPECTED_MESSAGE)).
Proof.
  intros Ex D Ei L1 L2 Hd. rewrite (record_inner _ _ _ _ _ _ _ Ex D Ei L1 L2 Hd). split.
  - intros content ty n H1 H2 ->. rewrite (inner_wraps ty content n H1). apply N.eqb_neq in H2. rewrite H2. reflexivity.
  - intros n ->. rewrite inner_zeros. reflexivity.
Qed.
