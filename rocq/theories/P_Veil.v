(* Two executions that differ only in the text of the application data (C52). *)
From Verif Require Import Base P_Base Iana Crypto Config Serial Ext Msg Hkdf Cipher Kex Sig Ocsp Transcript Conn S_Hist S_Conn S_Send S_Veil P_Monad P_Frame P_Rec P_Send P_Hist.

(* the connection with another output and another log *)
Definition put (o : bytes) (l : list sealing) (c : conn) : conn := cset_out o (cset_log l c).
Definition added (C : crypto) (ps : list part) (c c1 : conn) : Prop :=
  c_out c1 = c_out c ++ wire C ps /\ c_log c1 = rev (sealings ps) ++ c_log c.
(* [m] from [c] and [m'] from the other connection end alike *)
Definition veil (C : crypto) {A} (m m' : M A) : Prop := forall c o l, exists ps ps',
  Forall2 same_look ps ps' /\ added C ps c (snd (m c)) /\
  m' (put o l c) = (fst (m c), put (o ++ wire C ps') (rev (sealings ps') ++ l) (snd (m c))).

Lemma wire_app C a b : wire C (a ++ b) = wire C a ++ wire C b.
Proof. unfold wire. rewrite map_app, concat_app. reflexivity. Qed.
Lemma sealings_app a b : sealings (a ++ b) = sealings a ++ sealings b.
Proof. apply flat_map_app. Qed.
Lemma put_self c : put (c_out c) (c_log c) c = c. Proof. destruct c; reflexivity. Qed.
Lemma veiled_refl s : veiled s s. Proof. repeat split. Qed.

Section walk.
Variable C : crypto.
Hypothesis Sz : aead_sized C.
Notation veil := (veil C).
Lemma ve_pure A (m m' : M A) : (forall c, c_out (snd (m c)) = c_out c) -> (forall c, c_log (snd (m c)) = c_log c) ->
  (forall c o l, m' (put o l c) = (fst (m c), put o l (snd (m c)))) -> veil m m'.
Proof.
  intros H1 H2 H3 c o l. exists [], []. split; [constructor|]. split.
  - split; [rewrite H1; symmetry; apply app_nil_r | exact (H2 c)].
  - rewrite H3. cbn. rewrite app_nil_r. reflexivity.
Qed.
Lemma ve_ret A (a : A) : veil (ret a) (ret a). Proof. apply ve_pure; reflexivity. Qed.
Lemma ve_raise A e : veil (@raise A e) (raise e). Proof. apply ve_pure; reflexivity. Qed.
Lemma ve_lift A (r : res A) : veil (lift r) (lift r). Proof. apply ve_pure; reflexivity. Qed.
Lemma ve_modify f : (forall c, c_out (f c) = c_out c) -> (forall c, c_log (f c) = c_log c) ->
  (forall c o l, f (put o l c) = put o l (f c)) -> veil (modify f) (modify f).
Proof. intros H1 H2 H3. apply ve_pure; [exact H1 | exact H2 |]. intros c o l. unfold modify. rewrite H3. reflexivity. Qed.
Lemma ve_bind A B (m m' : M A) (f f' : A -> M B) : veil m m' -> (forall a, veil (f a) (f' a)) -> veil (bind m f) (bind m' f').
Proof.
  intros H K c o l. unfold bind. destruct (H c o l) as (ps & ps' & L1 & (O1 & G1) & E1). rewrite E1.
  destruct (m c) as [[a|e] c1]; cbn [fst snd] in *.
  - destruct (K a c1 (o ++ wire C ps') (rev (sealings ps') ++ l)) as (qs & qs' & L2 & (O2 & G2) & E2).
    exists (ps ++ qs), (ps' ++ qs'). split; [apply Forall2_app; assumption|]. split.
    + split; [rewrite O2, O1, wire_app, app_assoc | rewrite G2, G1, sealings_app, rev_app_distr, app_assoc]; reflexivity.
    + rewrite E2, wire_app, sealings_app, rev_app_distr, !app_assoc. reflexivity.
  - exists ps, ps'. split; [exact L1|]. split; [split; assumption | reflexivity].
Qed.
Lemma ve_get A (f : conn -> M A) : (forall c o l, f (put o l c) = f c) -> (forall c, veil (f c) (f c)) -> veil (bind get f) (bind get f).
Proof. intros H K c o l. rewrite !bind_get, H. apply K. Qed.
Lemma ve_tr A (f : transcript -> res A * transcript) : veil (on_tr f) (on_tr f).
Proof.
  apply ve_pure; intros c; unfold on_tr; [| |intros o l; change (c_tr (put o l c)) with (c_tr c)];
  destruct (f (c_tr c)); reflexivity.
Qed.
Lemma ve_method f : veil (tr_method f) (tr_method f). Proof. apply ve_tr. Qed.
Lemma ve_set s : veil (set_state s) (set_state s). Proof. apply ve_modify; reflexivity. Qed.
Ltac ve0 := repeat (cbv zeta; lazymatch goal with
  | |- veil (bind get _) _ => apply ve_get; [reflexivity | intro]
  | |- veil (bind _ _) _ => apply ve_bind; [|intro]
  | |- veil (ret _) _ => apply ve_ret
  | |- veil (raise _) _ => apply ve_raise
  | |- veil (lift _) _ => apply ve_lift
  | |- veil (modify _) _ => apply ve_modify; reflexivity
  | |- veil (set_state _) _ => apply ve_set
  | |- veil (tr_method _) _ => apply ve_method
  | |- veil (on_tr _) _ => apply ve_tr
  | |- veil (match ?x with _ => _ end) _ => destruct x eqn:?
  end).
Lemma ve_upd f : veil (upd_nc f) (upd_nc f). Proof. unfold upd_nc. ve0. Qed.
Lemma ve_ask A (f : cs -> res A) : veil (ask_cipher f) (ask_cipher f). Proof. unfold ask_cipher. ve0. Qed.
Lemma ve_on A (f : cs -> res A * cs) : veil (on_cipher f) (on_cipher f). Proof. unfold on_cipher. ve0. Qed.
Lemma ve_cipher s sd : veil (set_cipher s sd) (set_cipher s sd). Proof. unfold set_cipher. ve0. Qed.
Lemma ve_transcribe d sd ty : veil (transcribe d sd ty) (transcribe d sd ty). Proof. unfold transcribe. ve0. Qed.
Lemma ve_digest : veil (digest C) (digest C). Proof. unfold digest. ve0. Qed.
Lemma ve_draw : veil draw draw. Proof. unfold draw. ve0. Qed.

(* --- sealing ----------------------------------------------------------- *)
Lemma to_bytes2 n b : to_bytes 2 n = Ok b -> n < 65536.
Proof. intro H. unfold to_bytes in H. destruct (n <? 256 ^ N.of_nat 2) eqn:E; [|discriminate]. apply N.ltb_lt in E. exact E. Qed.
(* one fragment, without and with the other output and log *)
Lemma encrypt2 ct mfl f f' c o l : blen (inner_bytes ct mfl (tag_len c) f) = blen (inner_bytes ct mfl (tag_len c) f') ->
  (exists e c1, encrypt_fragment C ct mfl f c = (Err e, c1) /\ c_out c1 = c_out c /\ c_log c1 = c_log c /\
    encrypt_fragment C ct mfl f' (put o l c) = (Err e, put o l c1)) \/
  exists b b' s s' c1, encrypt_fragment C ct mfl f c = (Ok b, c1) /\ c_out c1 = c_out c /\ c_log c1 = s :: c_log c /\
    encrypt_fragment C ct mfl f' (put o l c) = (Ok b', put o (s' :: l) c1) /\ veiled s s' /\ blen b = blen b' /\
    b = cr_seal C (se_suite s) (se_key s) (se_nonce s) (se_data s) (se_aad s) /\
    b' = cr_seal C (se_suite s') (se_key s') (se_nonce s') (se_data s') (se_aad s') /\
    enc_on c1 = true /\ tag_len c1 = tag_len c.
Proof.
  intros Hl. unfold encrypt_fragment. rewrite !bind_get.
  change (tag_len (put o l c)) with (tag_len c).
  set (data := inner_bytes ct mfl (tag_len c) f) in *. set (data' := inner_bytes ct mfl (tag_len c) f') in *.
  cbv zeta. rewrite <- Hl.
  destruct (to_bytes 2 (blen data + tag_len c)) as [len|e] eqn:E1.
  2:{ left. exists e, c. repeat split; reflexivity. }
  set (header := Nb CT_APPDATA :: x03 :: x03 :: len).
  unfold on_cipher, bind, get, lift, modify, raise, ret. cbv beta iota. change (c_cipher (put o l c)) with (c_cipher c).
  destruct (c_cipher c) as [x|] eqn:Ex.
  2:{ left. exists XAttr, c. repeat split; reflexivity. }
  assert (T : tag_len c = tag_length (cs_suite x)) by (unfold tag_len; rewrite Ex; reflexivity).
  unfold encrypt. destruct (d_key (cs_w x)) as [k|] eqn:Ek.
  2:{ left. exists XAttr, (cset_cipher (Some x) c). repeat split; reflexivity. }
  destruct (next_nonce (cs_w x)) as [[nonce|e] w] eqn:En.
  2:{ left. exists (in_generator e), (cset_cipher (Some (cs_set_w x w)) c). repeat split; reflexivity. }
  right. cbv beta iota zeta.
  rewrite !(Sz _ _ _ _ _), <- Hl, T, N.eqb_refl.
  eexists _, _, (mkSealing (cs_suite x) (d_epoch (cs_w x)) k nonce data header), (mkSealing (cs_suite x) (d_epoch (cs_w x)) k nonce data' header), _.
  split; [reflexivity|]. split; [reflexivity|]. split; [reflexivity|]. split; [reflexivity|].
  split; [repeat split; exact Hl|].
  split; [rewrite !(Sz _ _ _ _ _), Hl; reflexivity|]. split; [reflexivity|]. split; [reflexivity|].
  apply next_nonce_ok in En. destruct En as (iv & q & _ & _ & _ & _ & _ & ->).
  split; [|reflexivity]. unfold enc_on. cbn [c_cipher cset_log cset_cipher]. unfold must_encrypt. cbn [cs_set_w cs_w].
  rewrite bump_key, Ek. reflexivity.
Qed.
Lemma record2 b b' : blen b = blen b' ->
  (exists e, record_bytes CT_APPDATA b = Err e /\ record_bytes CT_APPDATA b' = Err e) \/
  (record_bytes CT_APPDATA b = Ok (record CT_APPDATA b) /\ record_bytes CT_APPDATA b' = Ok (record CT_APPDATA b')).
Proof.
  intro L. unfold record_bytes, record. rewrite <- L. unfold to_bytes. destruct (blen b <? 256 ^ N.of_nat 2).
  - right. split; reflexivity.
  - left. eexists. split; reflexivity.
Qed.
Definition same_size (ct mfl tag : N) (f f' : bytes) : Prop := blen (inner_bytes ct mfl tag f) = blen (inner_bytes ct mfl tag f').
Lemma send_cons ct mfl f fs c : enc_on c = true -> send_fragments C ct mfl (f :: fs) c =
  match encrypt_fragment C ct mfl f c with
  | (Err e, c1) => (Err e, c1)
  | (Ok b, c1) =>
    match record_bytes CT_APPDATA b with
    | Err e => (Err e, c1)
    | Ok r => match send_fragments C ct mfl fs c1 with (Ok rs, c2) => (Ok (r ++ rs), c2) | (Err e, c2) => (Err e, c2) end
    end
  end.
Proof.
  intro En. cbn [send_fragments]. rewrite bind_get, En. unfold bind, lift, ret.
  destruct (encrypt_fragment C ct mfl f c) as [[b|e] c1]; [|reflexivity]. destruct (record_bytes CT_APPDATA b); reflexivity.
Qed.
Lemma seal2 ct mfl tag : forall fs fs', Forall2 (same_size ct mfl tag) fs fs' -> forall c o l, enc_on c = true -> tag_len c = tag ->
  exists ss ss' c1 r r', Forall2 veiled ss ss' /\
    send_fragments C ct mfl fs c = (r, c1) /\ send_fragments C ct mfl fs' (put o l c) = (r', put o (rev ss' ++ l) c1) /\
    c_out c1 = c_out c /\ c_log c1 = rev ss ++ c_log c /\
    ((exists e, r = Err e /\ r' = Err e) \/ (r = Ok (wire C (map Sealed ss)) /\ r' = Ok (wire C (map Sealed ss')))).
Proof.
  induction 1 as [|f f' fs fs' Hf Hr IH]; intros c o l En Et.
  { exists [], [], c, (Ok []), (Ok []). split; [constructor|]. repeat split. right. split; reflexivity. }
  rewrite (send_cons _ _ _ _ c En), (send_cons _ _ _ _ (put o l c) En).
  unfold same_size in Hf. rewrite <- Et in Hf.
  destruct (encrypt2 ct mfl f f' c o l Hf) as [(e & c1 & E1 & O1 & G1 & E2) | (b & b' & s & s' & c1 & E1 & O1 & G1 & E2 & V & Lb & Eb & Eb' & En1 & Et1)].
  { exists [], [], c1, (Err e), (Err e). rewrite E1, E2. split; [constructor|].
    split; [reflexivity|]. split; [reflexivity|]. split; [exact O1|]. split; [exact G1|]. left. exists e. split; reflexivity. }
  rewrite E1, E2. destruct (record2 b b' Lb) as [(e & R1 & R2) | (R1 & R2)]; rewrite R1, R2.
  { exists [s], [s'], c1, (Err e), (Err e). split; [constructor; [exact V | constructor]|].
    split; [reflexivity|]. split; [reflexivity|]. split; [exact O1|]. split; [exact G1|]. left. exists e. split; reflexivity. }
  destruct (IH c1 o (s' :: l) En1) as (ss & ss' & c2 & r & r' & F & S1 & S2 & O2 & G2 & Q); [congruence|].
  rewrite S1, S2.
  exists (s :: ss), (s' :: ss'), c2. 
  destruct Q as [(e & -> & ->) | (-> & ->)]; eexists _, _;
    (split; [constructor; [exact V | exact F]|]; split; [reflexivity|];
     split; [cbn [rev]; rewrite <- app_assoc; reflexivity|];
     split; [congruence|]; split; [rewrite G2, G1; cbn [rev]; rewrite <- app_assoc; reflexivity|]).
  - left. exists e. split; reflexivity.
  - right. rewrite Eb, Eb'. split; reflexivity.
Qed.

Lemma look_clear b : Forall2 same_look [Clear b] [Clear b]. Proof. repeat constructor. Qed.
Lemma look_sealed ss ss' : Forall2 veiled ss ss' -> Forall2 same_look (map Sealed ss) (map Sealed ss').
Proof. induction 1; constructor; assumption. Qed.
Lemma look_kept ss ss' : Forall2 veiled ss ss' -> Forall2 same_look (map Kept ss) (map Kept ss').
Proof. induction 1; constructor; assumption. Qed.
Lemma sealings_sealed ss : sealings (map Sealed ss) = ss. Proof. induction ss as [|s ss IH]; [reflexivity|]. cbn. f_equal. exact IH. Qed.
Lemma sealings_kept ss : sealings (map Kept ss) = ss. Proof. induction ss as [|s ss IH]; [reflexivity|]. cbn. f_equal. exact IH. Qed.
Lemma wire_kept ss : wire C (map Kept ss) = []. Proof. induction ss as [|s ss IH]; [reflexivity|]. exact IH. Qed.

(* the fragments of a content sent and appended to the output *)
Definition emit (ct mfl : N) (fs : list bytes) : M unit :=
  do out <- send_fragments C ct mfl fs; modify (fun c => cset_out (c_out c ++ out) c).
Lemma emit_sealed ct mfl fs fs' c o l : Forall2 (same_size ct mfl (tag_len c)) fs fs' -> enc_on c = true ->
  exists ps ps', Forall2 same_look ps ps' /\ added C ps c (snd (emit ct mfl fs c)) /\
  emit ct mfl fs' (put o l c) = (fst (emit ct mfl fs c), put (o ++ wire C ps') (rev (sealings ps') ++ l) (snd (emit ct mfl fs c))).
Proof.
  intros F En. destruct (seal2 ct mfl _ fs fs' F c o l En eq_refl) as (ss & ss' & c1 & r & r' & V & S1 & S2 & O & G & Q).
  unfold emit, bind. rewrite S1, S2. destruct Q as [(e & -> & ->) | (-> & ->)].
  - exists (map Kept ss), (map Kept ss'). split; [apply look_kept; exact V|]. unfold added. rewrite !wire_kept, !sealings_kept, !app_nil_r.
    cbn [fst snd]. split; [split; assumption | reflexivity].
  - exists (map Sealed ss), (map Sealed ss'). split; [apply look_sealed; exact V|]. unfold added. rewrite !sealings_sealed.
    cbn [fst snd modify c_out c_log cset_out]. rewrite O. split; [split; [reflexivity | exact G] | reflexivity].
Qed.
Lemma plain2 ct mfl : forall fs c d, enc_on c = false -> enc_on d = false ->
  exists r, send_fragments C ct mfl fs c = (r, c) /\ send_fragments C ct mfl fs d = (r, d).
Proof.
  induction fs as [|f fs IH]; intros c d Ec Ed; cbn [send_fragments].
  - exists (Ok []). split; reflexivity.
  - rewrite !bind_get, Ec, Ed. destruct (IH c d Ec Ed) as (r & E1 & E2). unfold bind, lift, ret.
    destruct (record_bytes ct f) as [b|e]; [|exists (Err e); split; reflexivity]. rewrite E1, E2.
    destruct r as [b'|e]; eexists; split; reflexivity.
Qed.
Lemma emit_plain ct mfl fs c o l : enc_on c = false ->
  exists ps ps', Forall2 same_look ps ps' /\ added C ps c (snd (emit ct mfl fs c)) /\
  emit ct mfl fs (put o l c) = (fst (emit ct mfl fs c), put (o ++ wire C ps') (rev (sealings ps') ++ l) (snd (emit ct mfl fs c))).
Proof.
  intro En. destruct (plain2 ct mfl fs c (put o l c) En En) as (r & S1 & S2).
  unfold emit, bind. rewrite S1, S2. destruct r as [b|e].
  - exists [Clear b], [Clear b]. split; [apply look_clear|]. unfold added, wire. cbn. rewrite app_nil_r. repeat split.
  - exists [], []. split; [constructor|]. unfold added, wire. cbn. rewrite !app_nil_r. repeat split.
Qed.
Lemma same_size_refl ct mfl tag fs : Forall2 (same_size ct mfl tag) fs fs.
Proof. induction fs; constructor; [reflexivity | assumption]. Qed.
Lemma ve_emit ct mfl fs : veil (emit ct mfl fs) (emit ct mfl fs).
Proof.
  intros c o l. destruct (enc_on c) eqn:En; [apply emit_sealed; [apply same_size_refl | exact En] | apply emit_plain; exact En].
Qed.

(* --- application data -------------------------------------------------- *)
Lemma blen_take_lt n (b : bytes) : n <= blen b -> blen (btake n b) = n.
Proof. intro H. unfold btake, blen in *. rewrite firstn_length. lia. Qed.
Lemma records_step l n : 0 < l -> l < n -> records l n = 1 + records l (n - l) /\ last_record l n = last_record l (n - l).
Proof.
  intros Hl Hn.
  assert (R : records l n = 1 + records l (n - l)).
  { unfold records. assert (n <=? l = false) as -> by (apply N.leb_gt; exact Hn).
    replace (n + l - 1) with ((n - 1) + 1 * l) by lia. rewrite N.div_add by lia.
    destruct (n - l <=? l) eqn:E; [apply N.leb_le in E | apply N.leb_gt in E].
    - assert ((n - 1) / l = 1); [|lia]. symmetry. apply (N.div_unique (n - 1) l 1 (n - 1 - l)); lia.
    - replace (n - l + l - 1) with (n - 1) by lia. lia. }
  split; [exact R|]. unfold last_record. rewrite R.
  assert (1 <= records l (n - l)).
  { unfold records. destruct (n - l <=? l) eqn:E; [lia|]. apply N.leb_gt in E.
    replace (n - l + l - 1) with ((n - l - 1) + 1 * l) by lia. rewrite N.div_add by lia. generalize ((n - l - 1) / l). intro q. clear. lia. }
  replace (1 + records l (n - l) - 1) with (1 + (records l (n - l) - 1)) by lia. rewrite N.mul_add_distr_r. lia.
Qed.
Lemma records_small l n : 0 < l -> (records l n = 1 <-> n <= l).
Proof.
  intro Hl. split; intro H.
  - destruct (N.le_gt_cases n l) as [L|L]; [exact L|]. exfalso. unfold records in H.
    assert (n <=? l = false) as E by (apply N.leb_gt; exact L). rewrite E in H.
    replace (n + l - 1) with ((n - 1) + 1 * l) in H by lia. rewrite N.div_add in H by lia.
    assert (1 <= (n - 1) / l); [|lia]. apply N.div_le_lower_bound; lia.
  - unfold records. apply N.leb_le in H. rewrite H. reflexivity.
Qed.
Lemma last_small l n : n <= l -> last_record l n = n.
Proof. intro H. unfold last_record, records. apply N.leb_le in H. rewrite H. lia. Qed.
Lemma same_blocks ct m t f f' : 0 < m -> blocks m t (blen f) = blocks m t (blen f') -> same_size ct m t f f'.
Proof.
  intros Hm B. unfold same_size. rewrite !blen_inner. unfold blocks in B.
  pose proof (pad_total m t (blen f) Hm) as P1. pose proof (pad_total m t (blen f') Hm) as P2. cbv zeta in P1, P2.
  rewrite B in P1. lia.
Qed.
Lemma chunks2 ct m t : 0 < m -> let l := m - (1 + t) in 0 < l -> forall n n' d d', (length d <= n)%nat -> (length d' <= n')%nat -> d <> [] -> d' <> [] ->
  same_shape m t (blen d) (blen d') -> Forall2 (same_size ct m t) (chunks n l d) (chunks n' l d').
Proof.
  intros Hm l Hl. induction n as [|n IH]; intros n' d d' Hn Hn' Nd Nd' [R B]; fold l in R, B.
  { destruct d; [congruence | cbn in Hn; lia]. }
  destruct n' as [|n']; [destruct d'; [congruence | cbn in Hn'; lia]|].
  assert (K : forall k b, b <> [] -> chunks (S k) l b = btake l b :: chunks k l (bdrop l b)) by (intros k b Nb; destruct b; [congruence | reflexivity]).
  rewrite !K by assumption.
  assert (E0 : forall k, chunks k l [] = []) by (intros []; reflexivity).
  assert (Ne : forall b : bytes, b <> [] -> 1 <= blen b) by (intros [|y b] Z; [congruence | unfold blen; cbn; lia]).
  destruct (N.le_gt_cases (blen d) l) as [L|L].
  - assert (L' : blen d' <= l) by (apply (records_small l (blen d') Hl); rewrite <- R; apply records_small; assumption).
    rewrite !last_small in B by assumption.
    assert (T : forall b : bytes, blen b <= l -> btake l b = b /\ bdrop l b = []).
    { intros b Z. unfold btake, bdrop, blen in *. split; [apply firstn_all2 | apply skipn_all2]; lia. }
    destruct (T d L) as [-> ->]. destruct (T d' L') as [-> ->]. rewrite !E0.
    constructor; [apply same_blocks; assumption | constructor].
  - assert (L' : l < blen d').
    { destruct (N.le_gt_cases (blen d') l) as [Z|Z]; [|exact Z]. apply (records_small l _ Hl) in Z. rewrite <- R in Z. apply (records_small l _ Hl) in Z. lia. }
    constructor.
    + apply same_blocks; [exact Hm|]. rewrite !blen_take_lt by lia. reflexivity.
    + destruct (records_step l (blen d) Hl L) as [R1 B1]. destruct (records_step l (blen d') Hl L') as [R2 B2].
      apply IH.
      * unfold bdrop. rewrite skipn_length. lia.
      * unfold bdrop. rewrite skipn_length. lia.
      * intro Z. apply (f_equal blen) in Z. rewrite blen_bdrop in Z. unfold blen at 2 in Z. cbn in Z. lia.
      * intro Z. apply (f_equal blen) in Z. rewrite blen_bdrop in Z. unfold blen at 2 in Z. cbn in Z. lia.
      * unfold same_shape. fold l. rewrite !blen_bdrop. split; [lia|]. rewrite <- B1, <- B2. exact B.
Qed.
Ltac ve := repeat (cbv zeta; lazymatch goal with
  | |- veil (bind (send_fragments _ _ _ _) _) _ => apply ve_emit
  | |- veil (bind get _) _ => apply ve_get; [reflexivity | intro]
  | |- veil (bind _ _) _ => apply ve_bind; [|intro]
  | |- veil (ret _) _ => apply ve_ret
  | |- veil (raise _) _ => apply ve_raise
  | |- veil (lift _) _ => apply ve_lift
  | |- veil (modify _) _ => apply ve_modify; reflexivity
  | |- veil (set_state _) _ => apply ve_set
  | |- veil (tr_method _) _ => apply ve_method
  | |- veil (on_tr _) _ => apply ve_tr
  | |- veil (upd_nc _) _ => apply ve_upd
  | |- veil (ask_cipher _) _ => apply ve_ask
  | |- veil (on_cipher _) _ => apply ve_on
  | |- veil (set_cipher _ _) _ => apply ve_cipher
  | |- veil (transcribe _ _ _) _ => apply ve_transcribe
  | |- veil (digest _) _ => apply ve_digest
  | |- veil draw _ => apply ve_draw
  | |- veil (match ?x with _ => _ end) _ => destruct x eqn:?
  end).
Lemma ve_send k : veil (send_content C k) (send_content C k).
Proof. unfold send_content. ve. Qed.
Lemma send_data_eq d c : send_data C d c =
  if negb (can_send_app (c_state c)) then (Err XTLS, c) else if negb (can_send (c_state c)) then (Err XTLS, c)
  else match fragments_of (fragment_limit c) true d with Ok fs => emit CT_APPDATA (max_frag c) fs c | Err e => (Err e, c) end.
Proof.
  unfold send_data, send_content. rewrite bind_get. change (content_type (KAppData d) =? CT_APPDATA) with true. cbn [andb].
  destruct (negb (can_send_app (c_state c))); [reflexivity|]. destruct (negb (can_send (c_state c))); [reflexivity|].
  cbn [ser_content can_fragment]. unfold emit, bind at 1 2 3 4, lift, ret, get.
  destruct (fragments_of (fragment_limit c) true d); reflexivity.
Qed.
Lemma added_nil c : added C [] c c. Proof. split; [symmetry; apply app_nil_r | reflexivity]. Qed.
Lemma valid_room m : valid_mfl m -> 512 <= m.
Proof. intros [<-|[<-|[<-|[<-|[<-|[]]]]]]; lia. Qed.
Lemma tag_16 s : tag_length s <= 16. Proof. unfold tag_length. destruct (s =? _); lia. Qed.
Lemma send_text d d' c o l x k : c_cipher c = Some x -> d_key (cs_w x) = Some k -> valid_mfl (max_frag c) ->
  same_shape (max_frag c) (tag_length (cs_suite x)) (blen d) (blen d') ->
  exists ps ps', Forall2 same_look ps ps' /\ added C ps c (snd (send_data C d c)) /\
  send_data C d' (put o l c) = (fst (send_data C d c), put (o ++ wire C ps') (rev (sealings ps') ++ l) (snd (send_data C d c))).
Proof.
  intros Ex Ek V Sh. rewrite !send_data_eq. change (c_state (put o l c)) with (c_state c).
  change (fragment_limit (put o l c)) with (fragment_limit c). change (max_frag (put o l c)) with (max_frag c).
  assert (Nil : forall e, exists ps ps', Forall2 same_look ps ps' /\ added C ps c (snd (@Err unit e, c)) /\
    (@Err unit e, put o l c) = (fst (@Err unit e, c), put (o ++ wire C ps') (rev (sealings ps') ++ l) (snd (@Err unit e, c)))).
  { intro e. exists [], []. split; [constructor|]. split; [apply added_nil|]. cbn. rewrite app_nil_r. reflexivity. }
  destruct (negb (can_send_app (c_state c))); [apply Nil|].
  destruct (negb (can_send (c_state c))); [apply Nil|].
  assert (En : enc_on c = true) by (unfold enc_on, must_encrypt; rewrite Ex, Ek; reflexivity).
  assert (Et : tag_len c = tag_length (cs_suite x)) by (unfold tag_len; rewrite Ex; reflexivity).
  unfold fragment_limit. rewrite En, Et. set (t := tag_length (cs_suite x)) in *. set (m := max_frag c) in *.
  pose proof (valid_room m V) as Vm. pose proof (tag_16 (cs_suite x)) as Ht. fold t in Ht.
  pose proof Sh as [R B]. set (lim := m - (1 + t)) in *. assert (Hl : 0 < lim) by (unfold lim; lia).
  unfold fragments_of.
  assert (J : (blen d <=? lim) = (blen d' <=? lim)).
  { apply eq_true_iff_eq. rewrite !N.leb_le, <- !(records_small lim _ Hl), R. reflexivity. }
  rewrite <- J. destruct (blen d <=? lim) eqn:E.
  - symmetry in J. apply N.leb_le in E. apply N.leb_le in J.
    rewrite !last_small in B by assumption.
    apply emit_sealed; [|exact En]. rewrite Et. constructor; [apply same_blocks; [lia | exact B] | constructor].
  - symmetry in J. apply N.leb_gt in E. apply N.leb_gt in J.
    apply emit_sealed; [|exact En]. rewrite Et. apply chunks2; try lia; try assumption.
    + intro Z. rewrite Z in E. unfold blen in E. cbn in E. lia.
    + intro Z. rewrite Z in J. unfold blen in J. cbn in J. lia.
Qed.

(* --- the rest of the connection ---------------------------------------- *)
Lemma ve_base k : veil (base_process k) (base_process k). Proof. unfold base_process. ve. Qed.
Lemma ve_initiate ck : veil (client_initiate C ck) (client_initiate C ck). Proof. unfold client_initiate. ve; apply ve_send. Qed.
Lemma ve_init : veil (initiate_connection C) (initiate_connection C). Proof. unfold initiate_connection. ve; apply ve_initiate. Qed.
Lemma ve_process_hrr h e : veil (client_process_hrr C h e) (client_process_hrr C h e). Proof. unfold client_process_hrr. ve; apply ve_init. Qed.
Lemma ve_neg_hello s e : veil (client_negociate_hello C s e) (client_negociate_hello C s e). Proof. unfold client_negociate_hello. ve. Qed.
Lemma ve_ee k : veil (process_wait_ee k) (process_wait_ee k).
Proof. unfold process_wait_ee, client_neg_mfl, client_neg_alpn, client_neg_heartbeat, client_neg_cct, client_neg_sct. ve; apply ve_base. Qed.
Lemma ve_cert b k : veil (process_wait_certificate C b k) (process_wait_certificate C b k). Proof. unfold process_wait_certificate. ve; apply ve_base. Qed.
Lemma ve_cert_cr k : veil (process_wait_cert_cr C k) (process_wait_cert_cr C k).
Proof. unfold process_wait_cert_cr. ve; first [apply ve_base | apply ve_cert]. Qed.
Lemma ve_cv b h k : veil (process_wait_cv C b h k) (process_wait_cv C b h k). Proof. unfold process_wait_cv. ve; apply ve_base. Qed.
Lemma ve_send_hrr b s l : veil (server_send_hrr C b s l) (server_send_hrr C b s l). Proof. unfold server_send_hrr. ve; apply ve_send. Qed.
Lemma ve_send_cert : veil (server_send_certificate C) (server_send_certificate C). Proof. unfold server_send_certificate. ve; apply ve_send. Qed.
Lemma ve_fail a : veil (fail C a) (fail C a). Proof. unfold fail. ve; apply ve_send. Qed.
Lemma ve_neg e : veil (server_negociate C e) (server_negociate C e).
Proof.
  unfold server_negociate, server_neg_versions, server_neg_groups, server_neg_sigalgs, server_neg_key_share, server_neg_cct,
    server_neg_sct, server_neg_mfl, server_neg_alpn, server_neg_heartbeat, server_neg_status. ve.
Qed.
Lemma ve_process_sh s e l : veil (client_process_sh C s e l) (client_process_sh C s e l).
Proof. unfold client_process_sh. ve; apply ve_neg_hello. Qed.
Lemma ve_sh f s h k : veil (process_wait_sh C f s h k) (process_wait_sh C f s h k).
Proof. unfold process_wait_sh. ve; first [apply ve_base | apply ve_process_hrr | apply ve_process_sh | apply ve_send]. Qed.
Lemma ve_ch f k : veil (process_wait_ch C f k) (process_wait_ch C f k).
Proof. unfold process_wait_ch, server_setup, server_send_hello. ve; first [apply ve_base | apply ve_neg | apply ve_send_hrr | apply ve_send_cert | apply ve_send]. Qed.
Lemma ve_cfin b h k : veil (process_client_finished C b h k) (process_client_finished C b h k).
Proof. unfold process_client_finished. ve; first [apply ve_base | apply ve_send]. Qed.
Lemma ve_sfin h k : veil (process_server_finished C h k) (process_server_finished C h k).
Proof. unfold process_server_finished. ve; first [apply ve_base | apply ve_send]. Qed.
Lemma ve_process k : veil (process C k) (process C k).
Proof.
  unfold process. ve; first [apply ve_base | apply ve_sh | apply ve_ee | apply ve_cert_cr | apply ve_cert | apply ve_cv | apply ve_cfin | apply ve_ch | apply ve_sfin].
Qed.
Lemma ve_handle ct d : veil (handle_content C ct d) (handle_content C ct d).
Proof. unfold handle_content. ve; apply ve_process. Qed.
Lemma ve_record : veil (read_next_record C) (read_next_record C). Proof. unfold read_next_record. ve. Qed.
Lemma ve_fill n : veil (fill_handshake n C) (fill_handshake n C).
Proof. induction n as [|n IH]; cbn [fill_handshake]; ve; try exact IH; apply ve_record. Qed.
Lemma ve_content : veil (read_next_content C) (read_next_content C).
Proof. unfold read_next_content. ve; first [apply ve_record | apply ve_fill]. Qed.
Lemma ve_one : veil (receive_one C) (receive_one C).
Proof. unfold receive_one. ve; first [apply ve_content | apply ve_handle]. Qed.
Lemma ve_guarded m : veil m m -> veil (guarded C m) (guarded C m).
Proof.
  intros H c o l. unfold guarded. destruct (H c o l) as (ps & ps' & L1 & (O1 & G1) & E1). rewrite E1.
  destruct (m c) as [[a|e] c1]; cbn [fst snd] in *.
  - exists ps, ps'. split; [exact L1|]. split; [split; assumption | reflexivity].
  - destruct (ve_fail (Some (match alert_of e with Some code => code | None => INTERNAL_ERROR end)) c1 (o ++ wire C ps') (rev (sealings ps') ++ l)) as (qs & qs' & L2 & (O2 & G2) & E2).
    rewrite E2. exists (ps ++ qs), (ps' ++ qs'). split; [apply Forall2_app; assumption|].
    destruct (fail C _ c1) as [[u|e2] c2]; cbn [fst snd] in *;
      (split; [split; [rewrite O2, O1, wire_app, app_assoc | rewrite G2, G1, sealings_app, rev_app_distr, app_assoc]; reflexivity
              | rewrite wire_app, sealings_app, rev_app_distr, !app_assoc; reflexivity]).
Qed.
Lemma ve_loop n : veil (receive_loop n C) (receive_loop n C).
Proof. induction n as [|n IH]; cbn [receive_loop]; ve; try exact IH; apply ve_guarded, ve_one. Qed.
Lemma ve_rekey : veil rekey rekey. Proof. unfold rekey. ve. Qed.
Lemma ve_receive d : veil (receive_data C d) (receive_data C d).
Proof. unfold receive_data. ve; first [apply ve_loop | apply ve_rekey]. Qed.
Lemma ve_close_r : veil (close_receiving_end C) (close_receiving_end C).
Proof. unfold close_receiving_end. ve; apply ve_fail. Qed.
Lemma ve_close_s : veil (close_sending_end C) (close_sending_end C).
Proof.
  unfold close_sending_end. ve; try apply ve_send.
  all: apply ve_modify; [intro c9 | intro c9 | intros c9 o l; change (c_state (put o l c9)) with (c_state c9)];
    destruct (c_state c9); reflexivity.
Qed.
Lemma ve_step op : op <> OFlush -> veil (step C op) (step C op).
Proof.
  destruct op; intro Nf; unfold step; ve; try congruence; try apply ve_init; try apply ve_receive; try apply ve_send; try apply ve_rekey; try apply ve_close_r; try apply ve_close_s.
  unfold data_to_read. ve.
Qed.

(* --- histories --------------------------------------------------------- *)
Lemma run2 : forall ops ops' c o l, mfl_good c -> same_but_text C c ops ops' ->
  exists ps ps', Forall2 same_look ps ps' /\
    flushed C ops c ++ c_out (run C ops c) = c_out c ++ wire C ps /\ c_log (run C ops c) = rev (sealings ps) ++ c_log c /\
    flushed C ops' (put o l c) ++ c_out (run C ops' (put o l c)) = o ++ wire C ps' /\
    c_log (run C ops' (put o l c)) = rev (sealings ps') ++ l /\
    put [] [] (run C ops' (put o l c)) = put [] [] (run C ops c) /\ answers C ops' (put o l c) = answers C ops c.
Proof.
  induction ops as [|op ops IH]; intros [|op' ops'] c o l G S; cbn [same_but_text] in S; try contradiction.
  { exists [], []. cbn. rewrite !app_nil_r. repeat split; constructor. }
  destruct S as [S0 S].
  assert (G1 : mfl_good (after C op c)) by (apply (mfl_good_run C [op]); exact G).
  assert (F : (op = OFlush /\ op' = OFlush) \/ (op <> OFlush /\ op' <> OFlush /\ exists ps ps', Forall2 same_look ps ps' /\ added C ps c (snd (step C op c)) /\
    step C op' (put o l c) = (fst (step C op c), put (o ++ wire C ps') (rev (sealings ps') ++ l) (snd (step C op c))))).
  { destruct S0 as [<- | (d & d' & x & k & -> & -> & Ex & Ek & Sh)].
    - destruct op; try (right; split; [discriminate|]; split; [discriminate|]; apply ve_step; discriminate). left; split; reflexivity.
    - right. split; [discriminate|]. split; [discriminate|].
      destruct (send_text d d' c o l x k Ex Ek (mfl_good_max _ G) Sh) as (ps & ps' & A & B & E).
      exists ps, ps'. split; [exact A|]. unfold step, bind. rewrite E.
      destruct (send_data C d c) as [[u|e] c1]; cbn [fst snd] in *; split; [exact B | reflexivity | exact B | reflexivity]. }
  cbn [flushed run answers]. unfold after, returned in *.
  destruct F as [(-> & ->) | (N1 & N2 & ps & ps' & A & (O1 & L1) & E)].
  - change (step C OFlush c) with (Ok (c_out c), cset_out [] c) in *.
    change (step C OFlush (put o l c)) with (@Ok bytes o, put [] l (cset_out [] c)). cbn [fst snd] in *.
    destruct (IH ops' (cset_out [] c) [] l G1 S) as (ps & ps' & A & B1 & B2 & B3 & B4 & B5 & B6).
    exists ps, ps'. split; [exact A|]. rewrite <- !app_assoc, B1, B3.
    repeat split; assumption.
  - rewrite E. cbn [snd fst].
    destruct (IH ops' (snd (step C op c)) (o ++ wire C ps') (rev (sealings ps') ++ l) G1 S) as (qs & qs' & A2 & B1 & B2 & B3 & B4 & B5 & B6).
    exists (ps ++ qs), (ps' ++ qs'). split; [apply Forall2_app; assumption|].
    rewrite !wire_app, !sealings_app, !rev_app_distr.
    assert (K : forall (T : Type) (q : S_Hist.op) (a b : T), q <> OFlush -> match q with OFlush => a | _ => b end = b) by (intros T q a b Z; destruct q; congruence || reflexivity).
    rewrite !K by assumption. cbn [app].
    split; [rewrite B1, O1, app_assoc; reflexivity|].
    split; [rewrite B2, L1, app_assoc; reflexivity|].
    split; [rewrite B3, app_assoc; reflexivity|].
    split; [rewrite B4, app_assoc; reflexivity|].
    split; [exact B5|]. f_equal. exact B6.
Qed.
Lemma look_wire ps ps' : hiding C -> Forall2 same_look ps ps' -> wire C ps = wire C ps'.
Proof.
  intros Hd. induction 1 as [|p p' ps ps' H _ IH]; [reflexivity|]. unfold wire in *. cbn [map concat]. rewrite IH. f_equal.
  destruct p as [b|s|s], p' as [b'|s'|s']; cbn in H; try contradiction; cbn [shown]; [exact H | | reflexivity].
  destruct H as (E1 & E2 & E3 & E4 & E5 & E6). unfold sealed_record. rewrite <- E1, <- E3, <- E4, <- E5. f_equal. apply Hd. exact E6.
Qed.
Lemma run_hidden : hiding C -> forall ops ops' c l, mfl_good c -> same_but_text C c ops ops' ->
  outcomes C ops' (put (c_out c) l c) = outcomes C ops c /\
  exists l', run C ops' (put (c_out c) l c) = put (c_out (run C ops c)) l' (run C ops c).
Proof.
  intro Hd. induction ops as [|op ops IH]; intros [|op' ops'] c l G S; cbn [same_but_text] in S; try contradiction.
  { split; [reflexivity|]. exists l. reflexivity. }
  destruct S as [S0 S].
  assert (G1 : mfl_good (after C op c)) by (apply (mfl_good_run C [op]); exact G).
  assert (F : exists l', step C op' (put (c_out c) l c) = (fst (step C op c), put (c_out (snd (step C op c))) l' (snd (step C op c)))).
  { assert (V : forall ps ps' : list part, Forall2 same_look ps ps' /\ added C ps c (snd (step C op c)) /\
      step C op' (put (c_out c) l c) = (fst (step C op c), put (c_out c ++ wire C ps') (rev (sealings ps') ++ l) (snd (step C op c))) ->
      exists l', step C op' (put (c_out c) l c) = (fst (step C op c), put (c_out (snd (step C op c))) l' (snd (step C op c)))).
    { intros ps ps' (A & (O1 & _) & E). exists (rev (sealings ps') ++ l). rewrite E, O1, (look_wire ps ps' Hd A). reflexivity. }
    destruct S0 as [<- | (d & d' & x & k & -> & -> & Ex & Ek & Sh)].
    - destruct op; try (match goal with |- context [step C ?o0 _] => destruct (ve_step o0 ltac:(discriminate) c (c_out c) l) as (ps & ps' & Z) end; exact (V ps ps' Z)).
      exists l. reflexivity.
    - destruct (send_text d d' c (c_out c) l x k Ex Ek (mfl_good_max _ G) Sh) as (ps & ps' & A & B & E).
      apply (V ps ps'). split; [exact A|]. unfold step, bind. rewrite E.
      destruct (send_data C d c) as [[u|e] c1]; cbn [fst snd] in *; split; [exact B | reflexivity | exact B | reflexivity]. }
  destruct F as (l' & F). cbn [outcomes run]. unfold after in *. rewrite F. cbn [fst snd].
  destruct (IH ops' (snd (step C op c)) l' G1 S) as [I1 I2]. split; [f_equal; exact I1 | exact I2].
Qed.
End walk.
Lemma veil_run C g c ops ops' : aead_sized C -> created g c -> same_but_text C c ops ops' ->
  answers C ops' c = answers C ops c /\
  exists ps ps', Forall2 same_look ps ps' /\
    flushed C ops c ++ c_out (run C ops c) = wire C ps /\ rev (c_log (run C ops c)) = sealings ps /\
    flushed C ops' c ++ c_out (run C ops' c) = wire C ps' /\ rev (c_log (run C ops' c)) = sealings ps'.
Proof.
  intros Sz Cr S. assert (O : c_out c = [] /\ c_log c = []).
  { destruct Cr as (_ & _ & flip & host & ocsp & u & rng & E). unfold new_conn in E. destruct (tr_new flip (g_suites g)); [|discriminate].
    cbn [rbind] in E. destruct (g_side g); [injection E; intros <-; split; reflexivity|].
    destruct (match host with Some (_ :: _) => true | _ => false end); [discriminate|]. injection E; intros <-; split; reflexivity. }
  destruct O as [O L].
  destruct (run2 C Sz ops ops' c (c_out c) (c_log c) (created_mfl g c Cr) S) as (ps & ps' & A & B1 & B2 & B3 & B4 & _ & B6).
  rewrite put_self in *. split; [exact B6|]. exists ps, ps'. rewrite O in *. rewrite L in *. rewrite app_nil_r in *.
  split; [exact A|]. split; [exact B1|]. split; [rewrite B2, rev_involutive; reflexivity|]. split; [exact B3|]. rewrite B4, rev_involutive. reflexivity.
Qed.
Lemma veil_hidden C g c ops ops' : aead_sized C -> hiding C -> created g c -> same_but_text C c ops ops' ->
  outcomes C ops' c = outcomes C ops c /\ c_out (run C ops' c) = c_out (run C ops c).
Proof.
  intros Sz Hd Cr S. destruct (run_hidden C Sz Hd ops ops' c (c_log c) (created_mfl g c Cr) S) as (A & l & B).
  rewrite put_self in *. split; [exact A|]. rewrite B. reflexivity.
Qed.
