(* Messages of an honest handshake, on their way from one endpoint to the
   other. *)
From Verif Require Import Base P_Base Iana Crypto Config Serial Ext Msg Hkdf Cipher Kex Sig Ocsp Transcript Conn S_Hist S_Conn S_Send S_Keys S_Utils S_Split S_Deliver P_Monad P_Frame P_Rec P_Send P_Hist P_Wire P_Buf P_Alert P_Blind P_Split P_Auth P_Deliver.

Lemma next A B (m : M A) (f : A -> M B) c a c1 : m c = (Ok a, c1) -> bind m f c = f a c1.
Proof. intro H. unfold bind. rewrite H. reflexivity. Qed.

(* --- in the clear -------------------------------------------------------- *)
Definition frags (mfl : N) (data : bytes) : list bytes :=
  if blen data <=? mfl then [data] else chunks (length data) mfl data.
Definition plain_wire (mfl : N) (data : bytes) : bytes := concat (map (record CT_HANDSHAKE) (frags mfl data)).
Definition ccs_record : bytes := record CT_CCS [x01].

Lemma frags_spec mfl data : 4 <= mfl -> 4 <= blen data ->
  concat (frags mfl data) = data /\ Forall (fun f => f <> [] /\ blen f <= mfl) (frags mfl data) /\
  exists f l, frags mfl data = f :: l /\ 4 <= blen f.
Proof.
  intros Hm Hd. unfold frags. destruct (blen data <=? mfl) eqn:E.
  - apply N.leb_le in E. split; [apply app_nil_r|]. split; [|exists data, []; auto].
    constructor; [|constructor]. split; [|exact E]. intros ->. unfold blen in Hd. cbn in Hd. lia.
  - apply N.leb_gt in E. destruct (chunks_spec mfl ltac:(lia) (length data) data (le_n _)) as (A & B & D).
    split; [exact A|]. split.
    + rewrite Forall_forall in *. auto.
    + destruct data as [|x data]; [unfold blen in Hd; cbn in Hd; lia|].
      cbn [chunks length]. eexists; eexists. split; [reflexivity|]. rewrite blen_btake. lia.
Qed.
Lemma send_plain_frags C ct mfl : forall l c, enc_on c = false -> Forall (fun f => blen f < 65536) l ->
  send_fragments C ct mfl l c = (Ok (concat (map (record ct) l)), c).
Proof.
  induction l as [|f l IH]; intros c Ex F; cbn [send_fragments]; [reflexivity|].
  inversion F as [|? ? F1 F2]; subst. rewrite bind_get, Ex. rewrite record_bytes_eq by exact F1.
  unfold bind at 1. unfold lift at 1. unfold bind. rewrite (IH c Ex F2). reflexivity.
Qed.
Definition noted (c : conn) (ty : N) (data : bytes) (t : transcript) : conn :=
  cset_hs (c_hs c ++ [(g_side (c_config c), ty, data)]) (cset_tr t c).
Lemma send_plain C h ty data t c : enc_on c = false -> can_send (c_state c) = true -> 4 <= max_frag c < 65536 ->
  msg_type h = Some ty -> ser_content C (KHandshake h) = Ok data -> 4 <= blen data ->
  tr_update data (g_side (c_config c)) ty (c_tr c) = (Ok tt, t) ->
  send_content C (KHandshake h) c = (Ok tt, cset_out (c_out c ++ plain_wire (max_frag c) data) (noted c ty data t)).
Proof.
  intros Ex Cs Lm Et Es Ld Eu. unfold send_content. rewrite bind_get. cbn [content_type].
  change (CT_HANDSHAKE =? CT_APPDATA) with false. cbn [andb]. rewrite Cs. cbn [negb]. rewrite Es.
  change (bind (lift (Ok data)) ?k c) with (k data c). cbv beta. rewrite Et.
  unfold transcribe. rewrite bind_assoc. unfold bind at 1. unfold on_tr. rewrite Eu. rewrite bind_modify, bind_get.
  change (cset_hs (c_hs (cset_tr t c) ++ [(g_side (c_config c), ty, data)]) (cset_tr t c)) with (noted c ty data t).
  set (c1 := noted c ty data t). assert (E1 : enc_on c1 = false) by exact Ex.
  assert (Fo : fragments_of (fragment_limit c1) (can_fragment (KHandshake h)) data = Ok (frags (max_frag c) data)).
  { unfold fragments_of, fragment_limit, frags. rewrite E1. change (max_frag c1) with (max_frag c). rewrite N.sub_0_r.
    destruct (_ <=? _); reflexivity. }
  rewrite Fo. change (bind (lift (Ok ?v)) ?k c1) with (k v c1). cbv beta.
  destruct (frags_spec (max_frag c) data ltac:(lia) Ld) as (_ & F & _).
  unfold bind. rewrite send_plain_frags; [reflexivity | exact E1 |].
  eapply Forall_impl; [|exact F]. cbv beta. intros f [_ L]. lia.
Qed.
Lemma send_ccs C c : enc_on c = false -> can_send (c_state c) = true -> 4 <= max_frag c < 65536 ->
  send_content C KCcs c = (Ok tt, cset_out (c_out c ++ ccs_record) c).
Proof.
  intros Ex Cs Lm. unfold send_content. rewrite bind_get. cbn [content_type].
  change (CT_CCS =? CT_APPDATA) with false. cbn [andb]. rewrite Cs. cbn [negb].
  change (ser_content C KCcs) with (@Ok bytes [x01]). change (bind (lift (Ok ?v)) ?k c) with (k v c). cbv beta.
  change (bind (ret tt) ?k c) with (k tt c). cbv beta. rewrite bind_get.
  assert (Fo : fragments_of (fragment_limit c) (can_fragment KCcs) [x01] = Ok [[x01]]).
  { unfold fragments_of, fragment_limit. rewrite Ex. replace (blen [x01] <=? _) with true; [reflexivity|].
    symmetry. apply N.leb_le. unfold blen. cbn [length]. lia. }
  rewrite Fo. change (bind (lift (Ok ?v)) ?k c) with (k v c). cbv beta.
  unfold bind. rewrite send_plain_frags; [cbn [concat map]; rewrite app_nil_r; reflexivity | exact Ex |].
  constructor; [|constructor]. unfold blen. cbn [length]. lia.
Qed.

Lemma skip_ccs_hs p rest : skip_ccs (record CT_HANDSHAKE p ++ rest) = record CT_HANDSHAKE p ++ rest.
Proof. reflexivity. Qed.
Lemma read_plain_record C c f rest : dec_on c = false -> blen f <= max_frag c < 65536 ->
  skip_ccs (c_in c) = record CT_HANDSHAKE f ++ rest ->
  read_next_record C c = (Ok (Some (CT_HANDSHAKE, f)), cset_in rest c).
Proof.
  intros Hd L Hc. rewrite read_record_eq. cbv zeta. rewrite Hc.
  destruct (record_head CT_HANDSHAKE f rest) as (H1 & H2 & H3 & H4 & H5); [reflexivity | lia |].
  rewrite H1. unfold rec_max. rewrite Hd.
  replace (_ <? 5) with false by (symmetry; apply N.ltb_ge; rewrite blen_app, H5; lia).
  replace (_ <? blen f) with false by (symmetry; apply N.ltb_ge; lia).
  replace (_ - 5 <? blen f) with false by (symmetry; apply N.ltb_ge; rewrite blen_app, H5; lia).
  unfold unprotect. rewrite bind_get. cbv zeta. rewrite H1, H3, H4.
  change (dec_on (cset_in rest c)) with (dec_on c). rewrite Hd.
  change (btake 1 (record CT_HANDSHAKE f ++ rest)) with [x16]. reflexivity.
Qed.
Lemma hs_len_app a b : 4 <= blen a -> hs_len (a ++ b) = hs_len a.
Proof. intro L. unfold hs_len. rewrite bdrop_app_le by lia. rewrite btake_app_le; [reflexivity|]. rewrite blen_bdrop. lia. Qed.
Lemma fill_plain C rest : forall l n c, dec_on c = false -> max_frag c < 65536 ->
  Forall (fun f => f <> [] /\ blen f <= max_frag c) l ->
  c_in c = concat (map (record CT_HANDSHAKE) l) ++ rest -> 4 <= blen (c_inhs c) ->
  hs_len (c_inhs c) = blen (c_inhs c ++ concat l) - 4 -> (length l < n)%nat ->
  fill_handshake n C c = (Ok true, cset_in rest (cset_inhs (c_inhs c ++ concat l) c)).
Proof.
  induction l as [|f l IH]; intros n c Hd Lm F Hc Li Hl Ln.
  - cbn [map concat] in *. rewrite app_nil_r in *. rewrite fill_done.
    + destruct c; cbn in *; subst; reflexivity.
    + unfold wanting. apply N.ltb_ge. lia.
  - inversion F as [|? ? [F0 F1] F2]; subst. destruct n as [|n]; [lia|].
    assert (Fp : 1 <= blen f) by (destruct f; [congruence | unfold blen; cbn [length]; lia]).
    cbn [concat map] in *. rewrite <- app_assoc in Hc.
    rewrite fill_more.
    2:{ unfold wanting. apply N.ltb_lt. rewrite Hl, !blen_app. lia. }
    rewrite (read_plain_record C c f (concat (map (record CT_HANDSHAKE) l) ++ rest) Hd); [|lia | rewrite Hc; reflexivity].
    change (negb (CT_HANDSHAKE =? CT_HANDSHAKE)) with false. cbv iota.
    set (c1 := cset_inhs _ _). rewrite (IH n c1).
    + unfold c1. cbn [c_inhs cset_inhs cset_in]. rewrite <- app_assoc. destruct c; reflexivity.
    + exact Hd.
    + exact Lm.
    + exact F2.
    + reflexivity.
    + unfold c1. cbn [c_inhs cset_inhs cset_in]. rewrite blen_app. lia.
    + unfold c1. cbn [c_inhs cset_inhs cset_in]. rewrite hs_len_app by exact Li. rewrite <- app_assoc. exact Hl.
    + cbn [length] in Ln. lia.
Qed.
Lemma ser_hs_head C h data : ser_content C (KHandshake h) = Ok data -> 4 <= blen data /\ hs_len data = blen data - 4.
Proof.
  intro H. unfold ser_content, ser_hs in H. apply rbind_ok in H as (b & Hb & H). destruct (msg_type h); [|discriminate].
  apply rbind_ok in H as (t & Ht & H). apply rbind_ok in H as (e & He & H). injection H; intros <-.
  apply to_bytes_ok in Ht as (_ & _ & Lt & _). apply put_var_ok in He as [-> L].
  rewrite !blen_app, blen_be_bytes, Lt. split; [lia|].
  unfold hs_len. rewrite (bdrop_app_exact' 1) by (symmetry; exact Lt).
  rewrite (btake_app_exact' 3) by (symmetry; apply blen_be_bytes). rewrite of_be_bytes by exact L. lia.
Qed.
Lemma records_len l : (length l <= length (concat (map (record CT_HANDSHAKE) l)))%nat.
Proof. induction l as [|f l IH]; [apply le_n|]. cbn [concat map length record app]. rewrite app_length. lia. Qed.
Lemma read_plain C c mfl data rest : dec_on c = false -> 4 <= mfl -> mfl <= max_frag c < 65536 -> c_inhs c = [] ->
  4 <= blen data -> hs_len data = blen data - 4 ->
  c_in c = plain_wire mfl data ++ rest ->
  read_next_content C c = (Ok (Some (CT_HANDSHAKE, data)), cset_in rest c).
Proof.
  intros Hd Hm Lm Hi Ld Hl Hc. destruct (frags_spec mfl data Hm Ld) as (Fc & F & f & l & Fe & Lf).
  unfold plain_wire in Hc. rewrite Fe in *. cbn [map concat] in *. rewrite <- app_assoc in Hc.
  inversion F as [|? ? [F0 F1] F2]; subst.
  rewrite content_eq, (read_plain_record C c f (concat (map (record CT_HANDSHAKE) l) ++ rest) Hd); [|lia | rewrite Hc; reflexivity].
  cbn [after_record]. change (c_inhs (cset_in ?v c)) with (c_inhs c). rewrite Hi.
  change (is_nil [] && negb (CT_HANDSHAKE =? CT_HANDSHAKE)) with false. change (negb (CT_HANDSHAKE =? CT_HANDSHAKE)) with false. cbv iota.
  cbn [app]. set (c1 := cset_inhs _ _). change (c_inhs c1) with f.
  replace (blen f <? 4) with false by (symmetry; apply N.ltb_ge; exact Lf).
  rewrite (fill_plain C rest l _ c1); cbn [after_fill].
  - cbn [c_inhs cset_inhs cset_in c1]. replace (hs_len _ <? _) with false.
    + destruct c; cbn in *; subst; reflexivity.
    + symmetry. apply N.ltb_ge. rewrite Hl. lia.
  - exact Hd.
  - apply Lm.
  - eapply Forall_impl; [|exact F2]. cbv beta. intros a [A1 A2]. split; [exact A1|]. eapply N.le_trans; [exact A2 | apply Lm].
  - reflexivity.
  - exact Lf.
  - change (c_inhs c1) with f. rewrite <- Hl. symmetry. apply hs_len_app. exact Lf.
  - change (c_in c1) with (concat (map (record CT_HANDSHAKE) l) ++ rest). rewrite app_length.
    apply le_n_S. eapply PeanoNat.Nat.le_trans; [exact (records_len l) | apply PeanoNat.Nat.le_add_r].
Qed.

(* --- protected ----------------------------------------------------------- *)
Definition hs_record (C : crypto) (mfl : N) (x : cs) (data : bytes) : bytes :=
  sealed_record C (cs_suite x) (seal_at CT_HANDSHAKE mfl x data).
Lemma seal_goes C c x ct f : aead_sized C -> valid_mfl (max_frag c) -> c_cipher c = Some x -> ready (cs_w x) ->
  blen f + 1 + tag_length (cs_suite x) <= max_frag c ->
  let s := seal_at ct (max_frag c) x f in
  encrypt_fragment C ct (max_frag c) f c =
    (Ok (cr_seal C (cs_suite x) (se_key s) (se_nonce s) (se_data s) (se_aad s)),
     cset_log (s :: c_log c) (cset_cipher (Some (bump_w x)) c)) /\
  blen (se_data s) + tag_length (cs_suite x) < 65536.
Proof.
  intros As V Ex (k & iv & q & R1 & R2 & R3 & R4 & R5) Lf s. pose proof (valid_mfl_range _ V) as Vr.
  assert (Tl : tag_len c = tag_length (cs_suite x)) by (unfold tag_len; rewrite Ex; reflexivity).
  assert (Ld : blen (se_data s) + tag_length (cs_suite x) < 65536).
  { unfold s, seal_at. cbn [se_data]. rewrite blen_inner. pose proof (tag_small (cs_suite x)).
    pose proof (pad_bound (max_frag c) (tag_length (cs_suite x)) (blen f) V Lf). lia. }
  split; [|exact Ld].
  assert (En : next_nonce (cs_w x) = (Ok (nonce_of (cs_w x)), bump_dir (cs_w x))).
  { unfold next_nonce, nonce_of, bump_dir. rewrite R2, R3. unfold seq_next. apply N.ltb_lt in R4. rewrite R4.
    rewrite (to_bytes_lt 12) by exact R5. reflexivity. }
  unfold encrypt_fragment. rewrite bind_get. cbv zeta. rewrite Tl.
  change (inner_bytes ct (max_frag c) (tag_length (cs_suite x)) f) with (se_data s).
  rewrite (to_bytes_lt 2) by exact Ld. change (bind (lift (Ok ?v)) ?k c) with (k v c). cbv beta.
  unfold bind at 1. unfold on_cipher. rewrite bind_get, Ex. unfold encrypt. rewrite R1, En.
  unfold bind, modify, ret, lift. rewrite As, N.eqb_refl.
  unfold s, seal_at, key_of. cbn [se_key se_nonce se_data se_aad]. rewrite R1. reflexivity.
Qed.
Lemma send_sealed C h ty data t c x : aead_sized C -> valid_mfl (max_frag c) -> c_cipher c = Some x -> ready (cs_w x) ->
  can_send (c_state c) = true -> blen data + 1 + tag_length (cs_suite x) <= max_frag c ->
  msg_type h = Some ty -> ser_content C (KHandshake h) = Ok data ->
  tr_update data (g_side (c_config c)) ty (c_tr c) = (Ok tt, t) ->
  send_content C (KHandshake h) c =
    (Ok tt, cset_out (c_out c ++ hs_record C (max_frag c) x data)
              (cset_log (seal_at CT_HANDSHAKE (max_frag c) x data :: c_log c) (cset_cipher (Some (bump_w x)) (noted c ty data t)))).
Proof.
  intros As V Ex R Cs Ld Et Es Eu. unfold send_content. rewrite bind_get. cbn [content_type].
  change (CT_HANDSHAKE =? CT_APPDATA) with false. cbn [andb]. rewrite Cs. cbn [negb]. rewrite Es.
  change (bind (lift (Ok data)) ?k c) with (k data c). cbv beta. rewrite Et.
  unfold transcribe. rewrite bind_assoc. unfold bind at 1. unfold on_tr. rewrite Eu. rewrite bind_modify, bind_get.
  change (cset_hs (c_hs (cset_tr t c) ++ [(g_side (c_config c), ty, data)]) (cset_tr t c)) with (noted c ty data t).
  set (c1 := noted c ty data t). assert (E1 : c_cipher c1 = Some x) by exact Ex.
  assert (En : enc_on c1 = true).
  { unfold enc_on. rewrite E1. unfold must_encrypt. destruct R as (k & _ & _ & -> & _). reflexivity. }
  assert (Tl : tag_len c1 = tag_length (cs_suite x)) by (unfold tag_len; rewrite E1; reflexivity).
  assert (Fo : fragments_of (fragment_limit c1) (can_fragment (KHandshake h)) data = Ok [data]).
  { unfold fragments_of, fragment_limit. rewrite En, Tl. change (max_frag c1) with (max_frag c).
    replace (_ <=? _) with true; [reflexivity|]. symmetry. apply N.leb_le. lia. }
  rewrite Fo. change (bind (lift (Ok ?v)) ?k c1) with (k v c1). cbv beta.
  destruct (seal_goes C c1 x CT_HANDSHAKE data As V E1 R Ld) as [Eq L].
  set (s := seal_at CT_HANDSHAKE (max_frag c1) x data) in *.
  assert (Sf : send_fragments C CT_HANDSHAKE (max_frag c1) [data] c1 =
    (Ok (hs_record C (max_frag c) x data), cset_log (s :: c_log c1) (cset_cipher (Some (bump_w x)) c1))).
  { cbn [send_fragments]. rewrite bind_get, En. rewrite bind_assoc. unfold bind at 1. rewrite Eq.
    rewrite record_bytes_eq by (rewrite As; exact L). unfold bind, lift, ret. rewrite app_nil_r. reflexivity. }
  unfold bind. change (content_type (KHandshake h)) with CT_HANDSHAKE. rewrite Sf. reflexivity.
Qed.
Lemma read_sealed_record C c y x mfl data rest : aead_correct C -> aead_sized C ->
  skip_ccs (c_in c) = hs_record C mfl x data ++ rest -> c_cipher c = Some y -> dec_on c = true ->
  valid_mfl mfl -> blen data + 1 + tag_length (cs_suite x) < mfl -> mfl <= max_frag c ->
  ready (cs_w x) -> mirrored x y ->
  read_next_record C c = (Ok (Some (CT_HANDSHAKE, data)), cset_cipher (Some (bump_r y)) (cset_in rest c)).
Proof.
  intros AC As Hc Hy Hd V Ld Lm (k & iv & q & R1 & R2 & R3 & R4 & R5) (Hs & Hk & Hv & Hq).
  pose proof (valid_mfl_range _ V) as Vr.
  set (s := seal_at CT_HANDSHAKE mfl x data).
  set (p := cr_seal C (cs_suite x) (se_key s) (se_nonce s) (se_data s) (se_aad s)) in *.
  assert (Rec : hs_record C mfl x data = record CT_APPDATA p) by reflexivity.
  assert (Lp : blen p = blen (se_data s) + tag_length (cs_suite x)) by apply As.
  assert (Lp2 : blen p <= mfl).
  { rewrite Lp. unfold s, seal_at. cbn [se_data]. rewrite blen_inner.
    pose proof (pad_short mfl (tag_length (cs_suite x)) (blen data) V ltac:(lia)). lia. }
  destruct (record_head CT_APPDATA p rest) as (H1 & H2 & H3 & H4 & H5); [reflexivity | lia |].
  rewrite read_record_eq. cbv zeta. rewrite Hc, Rec, H1. unfold rec_max. rewrite Hd.
  replace (_ <? 5) with false by (symmetry; apply N.ltb_ge; rewrite blen_app, H5; lia).
  replace (_ <? blen p) with false by (symmetry; apply N.ltb_ge; lia).
  replace (_ - 5 <? blen p) with false by (symmetry; apply N.ltb_ge; rewrite blen_app, H5; lia).
  unfold unprotect. rewrite bind_get. cbv zeta. rewrite H1, H2, H3, H4.
  change (dec_on (cset_in rest c)) with (dec_on c). rewrite Hd.
  unfold bind at 1. unfold on_cipher. rewrite bind_get.
  change (c_cipher (cset_in rest c)) with (c_cipher c). rewrite Hy.
  unfold decrypt. rewrite Hk, R1. unfold next_nonce. rewrite Hv, R2, Hq, R3.
  unfold seq_next. apply N.ltb_lt in R4. rewrite R4, (to_bytes_lt 12) by exact R5.
  rewrite Hs.
  assert (O : cr_open C (cs_suite x) k (be_bytes 12 (N.lxor iv (q_next q))) p
                (Nb CT_APPDATA :: x03 :: x03 :: be_bytes 2 (blen p)) = Some (se_data s)).
  { unfold p, s, seal_at. cbn [se_key se_nonce se_data se_aad].
    unfold key_of, nonce_of, aad_of. rewrite R1, R2, R3.
    match goal with |- cr_open _ _ _ _ ?P ?A = _ => replace A with
      (Nb CT_APPDATA :: x03 :: x03 :: be_bytes 2 (blen (se_data s) + tag_length (cs_suite x))) end.
    2:{ rewrite As. reflexivity. }
    unfold s, seal_at. cbn [se_data]. apply AC. }
  rewrite O. rewrite bind_modify. unfold lift. unfold s, seal_at. cbn [se_data].
  destruct (inner_sender (KHandshake HNone) mfl (tag_length (cs_suite x)) data) as (n & _ & I).
  cbn [content_type] in I. rewrite I.
  change (CT_HANDSHAKE =? CT_CCS) with false. cbv iota.
  unfold bump_r, bump_dir. rewrite Hk, Hq, R1, R3, Hv, R2. reflexivity.
Qed.
Lemma read_sealed C c y x mfl data rest : aead_correct C -> aead_sized C ->
  skip_ccs (c_in c) = hs_record C mfl x data ++ rest -> c_cipher c = Some y -> dec_on c = true -> c_inhs c = [] ->
  valid_mfl mfl -> blen data + 1 + tag_length (cs_suite x) < mfl -> mfl <= max_frag c ->
  4 <= blen data -> hs_len data = blen data - 4 ->
  ready (cs_w x) -> mirrored x y ->
  read_next_content C c = (Ok (Some (CT_HANDSHAKE, data)), cset_cipher (Some (bump_r y)) (cset_in rest c)).
Proof.
  intros AC As Hc Hy Hd Hi V Ld Lm L4 Hl R Mi. rewrite content_eq.
  rewrite (read_sealed_record C c y x mfl data rest AC As Hc Hy Hd V Ld Lm R Mi).
  cbn [after_record]. change (c_inhs (cset_cipher ?v (cset_in ?w c))) with (c_inhs c). rewrite Hi.
  change (is_nil [] && negb (CT_HANDSHAKE =? CT_HANDSHAKE)) with false. change (negb (CT_HANDSHAKE =? CT_HANDSHAKE)) with false. cbv iota.
  cbn [app]. set (c1 := cset_inhs _ _). change (c_inhs c1) with data.
  replace (blen data <? 4) with false by (symmetry; apply N.ltb_ge; exact L4).
  rewrite fill_done; cbn [after_fill].
  - change (c_inhs c1) with data. replace (hs_len _ <? _) with false.
    + unfold c1. destruct c; cbn in *; subst; reflexivity.
    + symmetry. apply N.ltb_ge. lia.
  - unfold wanting. apply N.ltb_ge. change (c_inhs c1) with data. lia.
Qed.
(* a message that was read is noted and handed to the state *)
Definition heard_of (c : conn) (ty : N) (data : bytes) (t : transcript) : conn :=
  cset_hs (c_hs c ++ [(other_side (g_side (c_config c)), ty, data)]) (cset_tr t c).
Lemma one_message C c c1 data h ty t c2 : read_next_content C c = (Ok (Some (CT_HANDSHAKE, data)), c1) ->
  parse_content C (peer_cert_type c1) CT_HANDSHAKE data = Ok (KHandshake h) -> msg_type h = Some ty ->
  tr_update data (other_side (g_side (c_config c1))) ty (c_tr c1) = (Ok tt, t) ->
  process C (KHandshake h) (heard_of c1 ty data t) = (Ok tt, c2) ->
  guarded C (receive_one C) c = (Ok true, c2).
Proof.
  intros Hr Hp Ht Hu Hx. unfold guarded, receive_one. unfold bind at 1. rewrite Hr.
  unfold handle_content. unfold bind at 1. rewrite bind_get. unfold lift at 1. unfold bind at 1. rewrite Hp, Ht.
  unfold transcribe. rewrite bind_assoc. unfold bind at 1. unfold on_tr. rewrite Hu. rewrite bind_modify.
  change (cset_hs _ _) with (heard_of c1 ty data t). rewrite Hx. reflexivity.
Qed.
