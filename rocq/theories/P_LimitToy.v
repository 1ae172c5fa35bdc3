(* A long fragment sealed by the toy cipher, without computing it. *)
From Verif Require Import Base P_Base Iana Crypto Config Serial Ext Msg Cipher Conn S_Hist S_Conn S_Send S_Nonce S_Alert S_Pack S_Split P_Rec P_Split P_Alert P_Pack Toy P_Toy P_HonestToy P_PackToy.
Local Open Scope N_scope.

Definition li_ok (c : conn) : bool :=
  match c_cipher c with
  | Some x => match d_key (cs_r x), d_iv (cs_r x), d_seq (cs_r x) with
              | Some k, Some iv, Some q => (cs_suite x =? TLS_CHACHA20_POLY1305_SHA256) && (q_next q + 0 <? 2 ^ 64)
              | _, _, _ => false end
  | None => false end.
Lemma sealable c f : li_ok c = true -> blen f + 17 <= max_frag c + 256 -> exists b, packed toy c 0 [(CT_APPDATA, f)] b.
Proof.
  intros H L. unfold li_ok in H.
  destruct (c_cipher c) as [x|] eqn:Ex; [|discriminate H]. destruct (d_key (cs_r x)) as [k|] eqn:Ek; [|discriminate H].
  destruct (d_iv (cs_r x)) as [iv|] eqn:Ei; [|discriminate H]. destruct (d_seq (cs_r x)) as [q|] eqn:Eq; [|discriminate H].
  apply andb_prop in H as [Hs Hq]. apply N.ltb_lt in Hq. apply N.eqb_eq in Hs.
  set (inner := f ++ [Nb CT_APPDATA]). set (aad := Nb CT_APPDATA :: x03 :: x03 :: be_bytes 2 (blen inner + 16)).
  set (p := cr_seal toy (cs_suite x) k (be_bytes 12 (N.lxor iv (q_next q + 0))) inner aad).
  assert (Lp : blen p = blen inner + 16) by (unfold p; rewrite toy_aead_sized, Hs; reflexivity).
  assert (Li : blen inner = blen f + 1) by (unfold inner; rewrite blen_app; reflexivity).
  exists (record CT_APPDATA p ++ []).
  apply (packed_sealed toy c 0 CT_APPDATA f [] [] x p inner); try assumption.
  - unfold dec_on. rewrite Ex. unfold must_decrypt. rewrite Ek. reflexivity.
  - exists (2 ^ 64). rewrite Hs. split; [cbn; tauto|]. intros q' E'. congruence.
  - split; reflexivity.
  - discriminate.
  - rewrite Lp, Li. lia.
  - intros k' iv' q' E1 E2 E3. rewrite Ek in E1. rewrite Ei in E2. rewrite Eq in E3. injection E1; intros <-. injection E2; intros <-. injection E3; intros <-.
    rewrite Lp. apply toy_aead_correct.
  - exists 0%nat. reflexivity.
  - constructor.
Qed.
