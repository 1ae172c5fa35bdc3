(* The record layer, sending side. *)
From Verif Require Import Base P_Base Iana Crypto Config Serial Ext Msg Hkdf Cipher Kex Sig Ocsp Transcript Conn S_Hist S_Conn S_Send P_Monad P_Frame P_Rec.

(* --- cutting ----------------------------------------------------------- *)
Lemma chunks_spec n : 0 < n -> forall fuel b, (length b <= fuel)%nat ->
  concat (chunks fuel n b) = b /\ Forall (fun f => f <> []) (chunks fuel n b) /\
  Forall (fun f => blen f <= n) (chunks fuel n b).
Proof.
  intros Hn. induction fuel as [|fuel IH]; intros b Hb.
  - destruct b; [|cbn in Hb; lia]. repeat split; constructor.
  - destruct b as [|x b]; [repeat split; constructor|].
    cbn [chunks].
    assert (L : (length (bdrop n (x :: b)) <= fuel)%nat).
    { pose proof (blen_bdrop n (x :: b)) as L. unfold blen in L. cbn [length] in *. lia. }
    destruct (IH _ L) as (I1 & I2 & I3). split; [|split].
    + cbn [concat]. rewrite I1. apply btake_bdrop.
    + constructor; [|exact I2]. intro E. pose proof (blen_btake n (x :: b)) as L1.
      rewrite E in L1. unfold blen in L1. cbn [length] in L1. lia.
    + constructor; [|exact I3]. rewrite blen_btake. lia.
Qed.
Lemma fragments_of_spec limit can data frags : 0 < limit ->
  fragments_of limit can data = Ok frags -> pieces limit data frags.
Proof.
  intros Hl. unfold fragments_of. destruct (blen data <=? limit) eqn:E.
  - intro H; injection H; intros; subst. apply N.leb_le in E. split; [|split].
    + cbn. apply app_nil_r.
    + repeat constructor. exact E.
    + destruct data; [right; auto | left; split; [constructor; [discriminate | constructor] | discriminate]].
  - destruct can; [|discriminate]. intro H; injection H; intros; subst. clear H.
    destruct (chunks_spec limit Hl (length data) data (le_n _)) as (A & B & D).
    split; [exact A|]. split; [exact D|]. left. split; [exact B|].
    intro K. rewrite K in A. cbn in A. subst data. apply N.leb_gt in E. unfold blen in E. cbn in E. lia.
Qed.

(* --- sealing ----------------------------------------------------------- *)
Definition bump_dir (d : dir) : dir :=
  match d_seq d with
  | Some q => mkDir (d_key d) (d_iv d) (Some (mkSeq (q_next q + 1) (q_limit q))) (d_epoch d)
  | None => d
  end.
Definition bump_w (x : cs) : cs := cs_set_w x (bump_dir (cs_w x)).
Definition key_of (d : dir) : bytes := match d_key d with Some k => k | None => [] end.
Definition nonce_of (d : dir) : bytes :=
  match d_iv d, d_seq d with
  | Some iv, Some q => be_bytes 12 (N.lxor iv (q_next q))
  | _, _ => []
  end.
Definition aad_of (n : N) : bytes := Nb CT_APPDATA :: x03 :: x03 :: be_bytes 2 n.
Definition seal_at (ct mfl : N) (x : cs) (f : bytes) : sealing :=
  let data := inner_bytes ct mfl (tag_length (cs_suite x)) f in
  mkSealing (cs_suite x) (d_epoch (cs_w x)) (key_of (cs_w x)) (nonce_of (cs_w x)) data
    (aad_of (blen data + tag_length (cs_suite x))).
Fixpoint seals (ct mfl : N) (x : cs) (l : list bytes) : list sealing :=
  match l with
  | [] => []
  | f :: l' => seal_at ct mfl x f :: seals ct mfl (bump_w x) l'
  end.
Fixpoint bumps (n : nat) (x : cs) : cs :=
  match n with O => x | S n' => bumps n' (bump_w x) end.

(* the direction can protect one more record *)
Definition ready (d : dir) : Prop :=
  exists k iv q, d_key d = Some k /\ d_iv d = Some iv /\ d_seq d = Some q /\
    q_next q < q_limit q /\ N.lxor iv (q_next q) < 256 ^ 12.

Lemma next_nonce_ok d n d' : next_nonce d = (Ok n, d') ->
  exists iv q, d_iv d = Some iv /\ d_seq d = Some q /\ q_next q < q_limit q /\
    N.lxor iv (q_next q) < 256 ^ 12 /\ n = nonce_of d /\ d' = bump_dir d.
Proof.
  unfold next_nonce, nonce_of, bump_dir. destruct (d_iv d) as [iv|]; [|discriminate].
  destruct (d_seq d) as [q|]; [|discriminate]. unfold seq_next.
  destruct (q_next q <? q_limit q) eqn:E; [|discriminate]. intro H.
  injection H; intros; subst. apply N.ltb_lt in E. exists iv, q.
  apply to_bytes_ok in H1. destruct H1 as (-> & L & _). repeat split; auto.
Qed.
Lemma encrypt_ok C data aad x b s x' : encrypt C data aad x = (Ok (b, s), x') ->
  ready (cs_w x) /\ x' = bump_w x /\
  s = mkSealing (cs_suite x) (d_epoch (cs_w x)) (key_of (cs_w x)) (nonce_of (cs_w x)) data aad /\
  b = cr_seal C (cs_suite x) (se_key s) (se_nonce s) data aad.
Proof.
  unfold encrypt. destruct (d_key (cs_w x)) as [k|] eqn:Ek; [|discriminate].
  destruct (next_nonce (cs_w x)) as [[n|e] w] eqn:E; [|discriminate].
  apply next_nonce_ok in E. destruct E as (iv & q & A & B & D & F & G & H).
  intro K; injection K; intros; subst. split; [exists k, iv, q; auto|].
  split; [reflexivity|]. unfold key_of. rewrite Ek. split; reflexivity.
Qed.

Lemma encrypt_fragment_ok C ct mfl f c b c' x : c_cipher c = Some x ->
  encrypt_fragment C ct mfl f c = (Ok b, c') ->
  let s := seal_at ct mfl x f in
  ready (cs_w x) /\ b = cr_seal C (cs_suite x) (se_key s) (se_nonce s) (se_data s) (se_aad s) /\
  blen b = blen (se_data s) + tag_length (cs_suite x) /\ blen b < 65536 /\
  c' = cset_log (s :: c_log c) (cset_cipher (Some (bump_w x)) c).
Proof.
  intros Ex. unfold encrypt_fragment. rewrite bind_get. cbv zeta.
  assert (T : tag_len c = tag_length (cs_suite x)) by (unfold tag_len; rewrite Ex; reflexivity).
  rewrite T. set (data := inner_bytes ct mfl (tag_length (cs_suite x)) f).
  intro H. apply bind_ok in H. destruct H as (len & c1 & H1 & H).
  apply lift_inv in H1. destruct H1 as [H1 ->]. apply to_bytes_ok in H1. destruct H1 as (-> & L & _).
  apply bind_ok in H. destruct H as ([b1 s] & c2 & H1 & H).
  destruct (on_cipher (encrypt C data _) c) as [[p|e] c3] eqn:E; [|discriminate].
  injection H1; intros; subst. clear H1.
  apply on_cipher_inv in E. destruct E as [(_ & E & _) | (y & y1 & E1 & E2 & E3)]; [discriminate|].
  assert (y = x) by congruence. subst y. subst c2.
  apply encrypt_ok in E2. destruct E2 as (R & -> & -> & ->).
  rewrite bind_modify in H.
  destruct (_ =? _) eqn:Eb; [|discriminate]. apply ret_inv in H. destruct H as [H ->].
  injection H; intros ->. apply N.eqb_eq in Eb.
  cbv zeta. split; [exact R|]. split; [reflexivity|].
  cbn [seal_at se_data se_key se_nonce se_aad] in *. split; [exact Eb|].
  split; [|reflexivity]. match type of Eb with ?a = _ => change (a < 65536) end. rewrite Eb. exact L.
Qed.

Lemma record_bytes_ok ty f r : record_bytes ty f = Ok r -> r = record ty f /\ blen f < 65536.
Proof.
  unfold record_bytes, record. destruct (to_bytes 2 (blen f)) as [l|] eqn:E; cbn [rbind]; [|discriminate].
  apply to_bytes_ok in E. destruct E as (-> & L & _). intro H; injection H; intros; subst. split; [reflexivity | exact L].
Qed.

Lemma bumps_out n x : cs_suite (bumps n x) = cs_suite x.
Proof. revert x; induction n; intro x; [reflexivity|]. cbn [bumps]. rewrite IHn. reflexivity. Qed.
Lemma bump_key d : d_key (bump_dir d) = d_key d.
Proof. unfold bump_dir. destruct (d_seq d); reflexivity. Qed.

Lemma enc_on_inv c : enc_on c = true -> exists x, c_cipher c = Some x /\ must_encrypt x = true.
Proof. unfold enc_on. destruct (c_cipher c) as [x|]; [eauto | discriminate]. Qed.

Lemma send_fragments_enc C ct mfl : forall l c out c' x,
  c_cipher c = Some x -> must_encrypt x = true ->
  send_fragments C ct mfl l c = (Ok out, c') ->
  out = concat (map (sealed_record C (cs_suite x)) (seals ct mfl x l)) /\
  Forall (fun s => blen (cr_seal C (cs_suite x) (se_key s) (se_nonce s) (se_data s) (se_aad s))
                   = blen (se_data s) + tag_length (cs_suite x) /\
                   blen (se_data s) + tag_length (cs_suite x) < 65536) (seals ct mfl x l) /\
  c' = cset_log (rev (seals ct mfl x l) ++ c_log c) (cset_cipher (Some (bumps (length l) x)) c).
Proof.
  induction l as [|f l IH]; intros c out c' x Ex Em; cbn [send_fragments].
  - intro H. apply ret_inv in H. destruct H as [H ->]. injection H; intros ->. clear H.
    split; [reflexivity|]. split; [constructor|].
    cbn. rewrite <- Ex. destruct c; reflexivity.
  - rewrite bind_get. replace (enc_on c) with true by (unfold enc_on; rewrite Ex; auto).
    intro H. apply bind_ok in H. destruct H as (r & c1 & H1 & H).
    apply bind_ok in H1. destruct H1 as (e & c2 & H1 & H2).
    apply (encrypt_fragment_ok _ _ _ _ _ _ _ _ Ex) in H1. cbv zeta in H1.
    destruct H1 as (R & Hb & Lb & Lb2 & ->).
    apply lift_inv in H2. destruct H2 as [H2 ->]. apply record_bytes_ok in H2. destruct H2 as [-> _].
    apply bind_ok in H. destruct H as (rs & c3 & H3 & H).
    apply ret_inv in H. destruct H as [H ->]. injection H; intros ->. clear H.
    assert (Em' : must_encrypt (bump_w x) = true).
    { unfold must_encrypt in *. cbn [bump_w cs_set_w cs_w]. rewrite bump_key. exact Em. }
    apply (IH _ _ _ (bump_w x)) in H3; [|reflexivity|exact Em'].
    destruct H3 as (A & B & D). cbn [bump_w cs_set_w cs_suite] in A, B.
    cbn [seals map concat]. split; [|split].
    + rewrite A. unfold sealed_record at 2. rewrite <- Hb. reflexivity.
    + constructor; [|exact B]. rewrite <- Hb, <- Lb. auto.
    + rewrite D. cbn [rev length bumps]. rewrite <- app_assoc. reflexivity.
Qed.
Lemma send_fragments_plain C ct mfl : forall l c out c',
  enc_on c = false -> send_fragments C ct mfl l c = (Ok out, c') ->
  out = concat (map (record ct) l) /\ Forall (fun f => blen f < 65536) l /\ c' = c.
Proof.
  induction l as [|f l IH]; intros c out c' Ex; cbn [send_fragments].
  - intro H; injection H; intros; subst. repeat split; constructor.
  - rewrite bind_get, Ex. intro H. apply bind_ok in H. destruct H as (r & c1 & H1 & H).
    apply lift_inv in H1. destruct H1 as [H1 ->]. apply record_bytes_ok in H1. destruct H1 as [-> L].
    apply bind_ok in H. destruct H as (rs & c3 & H3 & H).
    apply ret_inv in H. destruct H as [H ->]. injection H; intros ->.
    apply IH in H3; [|exact Ex]. destruct H3 as (-> & B & ->). repeat split. constructor; assumption.
Qed.

(* what a transcript update may touch *)
Definition tr_only (c c' : conn) : Prop := c' = cset_tr (c_tr c') (cset_hs (c_hs c') c).
Lemma transcribe_only d sd ty c : tr_only c (snd (transcribe d sd ty c)).
Proof.
  unfold transcribe, bind, on_tr. destruct (tr_update d sd ty (c_tr c)) as [[|] t]; cbn; unfold tr_only; destruct c; reflexivity.
Qed.

Lemma send_content_inv C k c r c' : send_content C k c = (r, c') -> r = Ok tt ->
  (content_type k = CT_APPDATA -> can_send_app (c_state c) = true) /\ can_send (c_state c) = true /\
  exists data c1 frags out c2,
    ser_content C k = Ok data /\ tr_only c c1 /\
    (match k with KHandshake h => exists ty, msg_type h = Some ty /\
       transcribe data (g_side (c_config c)) ty c = (Ok tt, c1) | _ => c1 = c end) /\
    fragments_of (fragment_limit c) (can_fragment k) data = Ok frags /\
    send_fragments C (content_type k) (max_frag c) frags c1 = (Ok out, c2) /\
    c' = cset_out (c_out c2 ++ out) c2.
Proof.
  intros H ->. unfold send_content in H. rewrite bind_get in H.
  destruct ((content_type k =? CT_APPDATA) && negb (can_send_app (c_state c))) eqn:E1; [discriminate|].
  destruct (negb (can_send (c_state c))) eqn:E2; [discriminate|].
  split. { intro E. rewrite E in E1. cbn in E1. apply negb_false_iff in E1. exact E1. }
  split. { apply negb_false_iff in E2. exact E2. }
  assert (K : (do data <- lift (ser_content C k);
     (match k with
     | KHandshake h =>
       match msg_type h with
       | None => raise XAttr
       | Some ty => transcribe data (g_side (c_config c)) ty
       end
     | _ => ret tt
     end) ;;
    do c <- get;
    do fragments <- lift (fragments_of (fragment_limit c) (can_fragment k) data);
    do out <- send_fragments C (content_type k) (max_frag c) fragments;
    modify (fun c => cset_out (c_out c ++ out) c)) c = (Ok tt, c')) by (destruct k; [exact H|exact H|exact H|exact H|discriminate]).
  clear H. apply bind_ok in K. destruct K as (data & c0 & K1 & K).
  apply lift_inv in K1. destruct K1 as [K1 ->].
  apply bind_ok in K. destruct K as ([] & c1 & K2 & K).
  rewrite bind_get in K. apply bind_ok in K. destruct K as (frags & c3 & K3 & K).
  apply lift_inv in K3. destruct K3 as [K3 ->].
  apply bind_ok in K. destruct K as (out & c2 & K4 & K).
  apply modify_inv in K. destruct K as [_ ->].
  assert (T : tr_only c c1 /\ (match k with KHandshake h => exists ty, msg_type h = Some ty /\
       transcribe data (g_side (c_config c)) ty c = (Ok tt, c1) | _ => c1 = c end)).
  { destruct k as [| |h| |].
    1,2,4,5: apply ret_inv in K2; destruct K2 as [_ ->]; split; [destruct c; reflexivity | reflexivity].
    destruct (msg_type h) as [ty|]; [|discriminate]. split; [|exists ty; auto].
    pose proof (transcribe_only data (g_side (c_config c)) ty c) as T. rewrite K2 in T. exact T. }
  destruct T as [T1 T2]. exists data, c1, frags, out, c2.
  assert (F1 : fragment_limit c1 = fragment_limit c) by (rewrite T1; reflexivity).
  assert (F2 : max_frag c1 = max_frag c) by (rewrite T1; reflexivity).
  rewrite F1 in K3. rewrite F2 in K4. auto 10.
Qed.

Lemma send_plain C k c c' : enc_on c = false -> 0 < max_frag c ->
  send_content C k c = (Ok tt, c') ->
  exists data frags, ser_content C k = Ok data /\ pieces (max_frag c) data frags /\
    c_out c' = c_out c ++ concat (map (record (content_type k)) frags) /\ c_log c' = c_log c.
Proof.
  intros En Hm H. apply send_content_inv in H; [|reflexivity].
  destruct H as (_ & _ & data & c1 & frags & out & c2 & H1 & H2 & H2' & H3 & H4 & ->).
  exists data, frags. split; [exact H1|].
  assert (L : fragment_limit c = max_frag c) by (unfold fragment_limit; rewrite En; lia).
  rewrite L in H3. split; [eapply fragments_of_spec; eassumption|].
  apply send_fragments_plain in H4; [|rewrite H2; exact En]. destruct H4 as (-> & _ & ->).
  rewrite H2. split; reflexivity.
Qed.
Lemma send_enc C k c c' x : c_cipher c = Some x -> must_encrypt x = true -> 1 + tag_length (cs_suite x) < max_frag c ->
  send_content C k c = (Ok tt, c') ->
  exists data frags, ser_content C k = Ok data /\
    pieces (max_frag c - (1 + tag_length (cs_suite x))) data frags /\
    let ss := seals (content_type k) (max_frag c) x frags in
    c_out c' = c_out c ++ concat (map (sealed_record C (cs_suite x)) ss) /\
    c_log c' = rev ss ++ c_log c /\
    c_cipher c' = Some (bumps (length frags) x) /\
    Forall (fun s => blen (cr_seal C (cs_suite x) (se_key s) (se_nonce s) (se_data s) (se_aad s))
                   = blen (se_data s) + tag_length (cs_suite x) /\
                   blen (se_data s) + tag_length (cs_suite x) < 65536) ss.
Proof.
  intros Ex Em Hm H. apply send_content_inv in H; [|reflexivity].
  destruct H as (_ & _ & data & c1 & frags & out & c2 & H1 & H2 & H2' & H3 & H4 & ->).
  exists data, frags. split; [exact H1|].
  assert (L : fragment_limit c = max_frag c - (1 + tag_length (cs_suite x))).
  { unfold fragment_limit, enc_on, tag_len. rewrite Ex, Em. reflexivity. }
  rewrite L in H3. split; [eapply fragments_of_spec; [|eassumption]; lia|].
  apply (send_fragments_enc _ _ _ _ _ _ _ x) in H4; [|rewrite H2; exact Ex|exact Em].
  destruct H4 as (-> & B & ->). cbv zeta. rewrite H2. cbn. auto.
Qed.

Lemma seals_wrap ct mfl : forall l x, Forall2 (fun f s => wraps ct f (se_data s)) l (seals ct mfl x l).
Proof.
  induction l as [|f l IH]; intro x; cbn [seals]; constructor; [|apply IH].
  cbn. unfold inner_bytes, zeros. eexists. reflexivity.
Qed.

(* --- padding ----------------------------------------------------------- *)
Lemma strip_zeros_app n b : b <> [] -> hd x00 b <> x00 -> strip_zeros (repeat x00 n ++ b) = b.
Proof.
  intros Hb Hh. induction n; [|exact IHn]. cbn [repeat app].
  destruct b as [|y b]; [congruence|]. destruct y; try reflexivity. cbn in Hh. congruence.
Qed.
Lemma strip_zeros_all n : strip_zeros (repeat x00 n) = [].
Proof. induction n; [reflexivity | exact IHn]. Qed.
Lemma rev_repeat (A : Type) (a : A) n : rev (repeat a n) = repeat a n.
Proof.
  induction n; [reflexivity|]. cbn [repeat rev]. rewrite IHn. clear.
  induction n; [reflexivity|]. cbn [repeat app]. rewrite IHn. reflexivity.
Qed.
Lemma inner_wraps t f n : t <> x00 -> inner_plaintext (f ++ t :: repeat x00 n) = Ok (bN t, f).
Proof.
  intro H. unfold inner_plaintext. rewrite <- (rev_alt _).
  replace (f ++ t :: repeat x00 n) with ((f ++ [t]) ++ repeat x00 n) by (rewrite <- app_assoc; reflexivity).
  rewrite rev_app_distr, rev_repeat, rev_app_distr. cbn [rev app].
  rewrite strip_zeros_app; [|discriminate|exact H]. rewrite <- rev_alt, rev_involutive. reflexivity.
Qed.
Lemma inner_zeros n : inner_plaintext (repeat x00 n) = Err (XAlert UNEXPECTED_MESSAGE).
Proof. unfold inner_plaintext. rewrite <- rev_alt, rev_repeat, strip_zeros_all. reflexivity. Qed.
Lemma strip_zeros_inv b : exists n, b = repeat x00 n ++ strip_zeros b /\ (strip_zeros b = [] \/ hd x00 (strip_zeros b) <> x00).
Proof.
  induction b as [|y b IH]; [exists 0%nat; split; [reflexivity | left; reflexivity]|].
  destruct y; try (exists 0%nat; split; [reflexivity | right; discriminate]).
  destruct IH as (n & E & H). exists (S n). cbn [strip_zeros repeat app]. split; [f_equal; exact E | exact H].
Qed.
Lemma inner_inv b t f : inner_plaintext b = Ok (t, f) ->
  exists y n, y <> x00 /\ t = bN y /\ b = f ++ y :: repeat x00 n.
Proof.
  unfold inner_plaintext. rewrite <- (rev_alt b). destruct (strip_zeros_inv (rev b)) as (n & E & H).
  destruct (strip_zeros (rev b)) as [|y rb]; [discriminate|]. intro K; injection K; intros; subst.
  exists y, n. destruct H as [H|H]; [discriminate|]. split; [exact H|]. split; [reflexivity|].
  rewrite <- (rev_involutive b), E, rev_app_distr, rev_repeat. cbn [rev]. rewrite <- rev_alt, <- app_assoc. reflexivity.
Qed.
Lemma inner_err b e : inner_plaintext b = Err e -> e = XAlert UNEXPECTED_MESSAGE /\ b = repeat x00 (length b).
Proof.
  unfold inner_plaintext. rewrite <- (rev_alt b). destruct (strip_zeros_inv (rev b)) as (n & E & H).
  destruct (strip_zeros (rev b)) as [|y rb]; [|discriminate]. intro K; injection K; intros; subst.
  split; [reflexivity|]. rewrite app_nil_r in E.
  assert (length b = n) as ->. { rewrite <- rev_length, E. apply repeat_length. }
  rewrite <- (rev_involutive b), E, rev_repeat. reflexivity.
Qed.

Lemma blen_zeros n : blen (zeros n) = n.
Proof. unfold blen, zeros. rewrite repeat_length. lia. Qed.
Lemma blen_inner ct mfl tag f : blen (inner_bytes ct mfl tag f) = blen f + 1 + pad_len mfl tag (blen f).
Proof.
  unfold inner_bytes. rewrite blen_app.
  change (Nb ct :: zeros (pad_len mfl tag (blen f))) with ([Nb ct] ++ zeros (pad_len mfl tag (blen f))).
  rewrite blen_app, blen_zeros. unfold blen at 2. cbn [length]. lia.
Qed.
Definition chunk_size (mfl : N) : N := N.min mfl 4096.
Lemma pad_total mfl tag len : 0 < mfl -> 
  let c := N.min mfl 4096 in
  len + 1 + pad_len mfl tag len + tag = ((len + 1 + tag) / c + 1) * c.
Proof.
  intros Hm c. unfold pad_len. fold c. assert (0 < c) by (unfold c; lia).
  pose proof (N.div_mod (len + 1 + tag) c). pose proof (N.mod_lt (len + 1 + tag) c).
  set (q := (len + 1 + tag) / c) in *. set (m := (len + 1 + tag) mod c) in *.
  assert (c <> 0) by lia. specialize (H0 H2). specialize (H1 H2).
  rewrite N.mul_add_distr_r, (N.mul_comm q c). lia.
Qed.
Lemma pad_short mfl tag len : valid_mfl mfl -> len + 1 + tag < mfl ->
  len + 1 + pad_len mfl tag len + tag <= mfl.
Proof.
  intros V H. rewrite pad_total by lia. cbv zeta.
  assert (D : exists k, mfl = k * N.min mfl 4096 /\ 0 < N.min mfl 4096).
  { unfold valid_mfl in V. cbn in V. destruct V as [<-|[<-|[<-|[<-|[<-|[]]]]]];
    [exists 1|exists 1|exists 1|exists 1|exists 4]; split; reflexivity. }
  destruct D as (k & D & Dp). set (c := N.min mfl 4096) in *. rewrite D.
  apply N.mul_le_mono_r. assert ((len + 1 + tag) / c < k); [|lia].
  apply N.div_lt_upper_bound; lia.
Qed.
Lemma pad_full mfl tag len : valid_mfl mfl -> len + 1 + tag = mfl ->
  len + 1 + pad_len mfl tag len + tag = mfl + N.min mfl 4096.
Proof.
  intros V H. pose proof V as V'. unfold valid_mfl in V'. cbn in V'.
  rewrite pad_total by (destruct V' as [<-|[<-|[<-|[<-|[<-|[]]]]]]; lia). rewrite H.
  destruct V' as [<-|[<-|[<-|[<-|[<-|[]]]]]]; reflexivity.
Qed.
Lemma pad_bound mfl tag len : valid_mfl mfl -> len + 1 + tag <= mfl ->
  len + 1 + pad_len mfl tag len + tag <= mfl + N.min mfl 4096.
Proof.
  intros V H. destruct (N.eq_dec (len + 1 + tag) mfl) as [E|E].
  - rewrite pad_full by assumption. lia.
  - pose proof (pad_short mfl tag len V). lia.
Qed.
