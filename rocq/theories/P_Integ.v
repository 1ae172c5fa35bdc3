(* Integrity against an active attacker, the sending side: the records that a
   connected endpoint seals carry, in order, what was written. *)
From Verif Require Import Base P_Base Iana Crypto Config Serial Ext Msg Hkdf Cipher Kex Sig Ocsp Transcript Conn
  S_Hist S_Conn S_Send S_Nonce S_Alert S_Deliver S_Integrity P_Monad P_Frame P_Rec P_Send P_Nonce P_Pieces P_Alert P_Buf P_Hist P_Wire.

Definition payload1 (s : sealing) : bytes :=
  match inner_plaintext (se_data s) with
  | Ok (ct, f) => if ct =? CT_APPDATA then f else []
  | Err _ => []
  end.
Definition payload (E : list sealing) : bytes := concat (map payload1 E).
Lemma payload_app E F : payload (E ++ F) = payload E ++ payload F.
Proof. unfold payload. rewrite map_app, concat_app. reflexivity. Qed.

(* [d] after [n] more records *)
Fixpoint dbump (n : nat) (d : dir) : dir := match n with O => d | S n' => dbump n' (bump_dir d) end.
Lemma bumps_w n : forall x, cs_w (bumps n x) = dbump n (cs_w x).
Proof. induction n as [|n IH]; intro x; [reflexivity|]. cbn [bumps dbump]. rewrite IH. reflexivity. Qed.
Lemma dbump_add n : forall m d, dbump (n + m) d = dbump m (dbump n d).
Proof. induction n as [|n IH]; intros m d; [reflexivity|]. cbn [Nat.add dbump]. apply IH. Qed.
Lemma dbump_some n : forall d q, d_seq d = Some q ->
  dbump n d = mkDir (d_key d) (d_iv d) (Some (mkSeq (q_next q + N.of_nat n) (q_limit q))) (d_epoch d).
Proof.
  induction n as [|n IH]; intros d q E; cbn [dbump].
  - rewrite N.add_0_r. destruct d, q. cbn in *. congruence.
  - unfold bump_dir at 1. rewrite E. rewrite (IH (mkDir (d_key d) (d_iv d) (Some (mkSeq (q_next q + 1) (q_limit q))) (d_epoch d)) (mkSeq (q_next q + 1) (q_limit q)) eq_refl). cbn [d_key d_iv d_epoch q_next q_limit].
    replace (q_next q + 1 + N.of_nat n) with (q_next q + N.of_nat (S n)) by lia. reflexivity.
Qed.

(* the sealings [E] were made one after the other, from [d] on *)
Fixpoint chain (suite : N) (d : dir) (E : list sealing) : Prop :=
  match E with
  | [] => True
  | s :: E' => se_suite s = suite /\ se_epoch s = d_epoch d /\ se_key s = key_of d /\ se_nonce s = nonce_of d /\ ready d /\
               (exists ct f, ct < 256 /\ ct <> 0 /\ wraps ct f (se_data s)) /\ chain suite (bump_dir d) E'
  end.
Lemma chain_app suite : forall E d F, chain suite d E -> chain suite (dbump (length E) d) F -> chain suite d (E ++ F).
Proof.
  induction E as [|s E IH]; intros d F H K; [exact K|]. cbn [chain app length dbump] in *.
  destruct H as (A & B & D & G & R & Z & H). repeat (split; [assumption|]). apply IH; assumption.
Qed.
Lemma chain_nth suite : forall E d i s, chain suite d E -> nth_error E i = Some s ->
  se_suite s = suite /\ se_epoch s = d_epoch (dbump i d) /\ se_key s = key_of (dbump i d) /\ se_nonce s = nonce_of (dbump i d) /\ ready (dbump i d).
Proof.
  induction E as [|t E IH]; intros d i s H K; [destruct i; discriminate|].
  destruct H as (A & B & D & G & R & _ & H). destruct i as [|i]; cbn [nth_error dbump] in *.
  - injection K; intros <-. auto.
  - eapply IH; eassumption.
Qed.

Lemma seals_payload ct mfl : ct < 256 -> ct <> 0 -> forall l x,
  payload (seals ct mfl x l) = if ct =? CT_APPDATA then concat l else [].
Proof.
  intros L Z. induction l as [|f l IH]; intro x; [destruct (_ =? _); reflexivity|].
  cbn [seals]. unfold payload in *. cbn [map concat]. rewrite IH.
  assert (E : payload1 (seal_at ct mfl x f) = if ct =? CT_APPDATA then f else []).
  { unfold payload1, seal_at. cbn [se_data]. unfold inner_bytes, zeros.
    rewrite inner_wraps; [rewrite bN_Nb by exact L; reflexivity|].
    intro K. apply Z. rewrite <- (bN_Nb ct L), K. reflexivity. }
  rewrite E. destruct (ct =? CT_APPDATA); reflexivity.
Qed.

Definition stuck (d : dir) : Prop := exists q, d_seq d = Some q /\ q_limit q <= q_next q.
Definition wired (x : cs) : Prop :=
  exists k iv q, d_key (cs_w x) = Some k /\ d_iv (cs_w x) = Some iv /\ d_seq (cs_w x) = Some q /\ iv < 256 ^ 12 /\ q_limit q <= 2 ^ 64.
Lemma wired_bump x : wired x -> wired (bump_w x).
Proof.
  intros (k & iv & q & A & B & D & F & G). unfold wired, bump_w, bump_dir. cbn [cs_set_w cs_w]. rewrite D. cbn [d_key d_iv d_seq].
  exists k, iv, (mkSeq (q_next q + 1) (q_limit q)). auto.
Qed.
Lemma cs_set_w_id x d : d = cs_w x -> cs_set_w x d = x.
Proof. intros ->. destruct x. reflexivity. Qed.
Lemma encrypt_fragment_or C ct mfl f c r c' x : aead_sized C -> valid_mfl mfl -> c_cipher c = Some x -> wired x ->
  blen f + 1 + tag_length (cs_suite x) <= mfl -> encrypt_fragment C ct mfl f c = (r, c') ->
  match r with
  | Ok b => blen b < 65536 /\ ready (cs_w x) /\ c_cipher c' = Some (bump_w x) /\ c_log c' = seal_at ct mfl x f :: c_log c
  | Err _ => c_cipher c' = Some x /\ c_log c' = c_log c /\ stuck (cs_w x)
  end.
Proof.
  intros As V Ex W Lf H. destruct r as [b|e].
  { apply (encrypt_fragment_ok C ct mfl f c b c' x Ex) in H. cbv zeta in H. destruct H as (R & _ & _ & L & ->).
    split; [exact L|]. split; [exact R|]. split; reflexivity. }
  destruct W as (k & iv & q & Ek & Ei & Eq & Li & Lq).
  unfold encrypt_fragment in H. rewrite bind_get in H. cbv zeta in H.
  assert (Tl : tag_len c = tag_length (cs_suite x)) by (unfold tag_len; rewrite Ex; reflexivity). rewrite Tl in H.
  set (data := inner_bytes ct mfl (tag_length (cs_suite x)) f) in *.
  assert (Ld : blen data + tag_length (cs_suite x) < 65536).
  { unfold data. rewrite blen_inner. pose proof (tag_small (cs_suite x)). pose proof (valid_mfl_range _ V).
    pose proof (pad_bound mfl (tag_length (cs_suite x)) (blen f) V Lf). lia. }
  rewrite (to_bytes_lt 2) in H by exact Ld. change (bind (lift (Ok ?v)) ?k c) with (k v c) in H. cbv beta in H.
  unfold bind at 1 in H. unfold on_cipher in H. rewrite bind_get, Ex in H. unfold encrypt, next_nonce in H. rewrite Ek, Ei, Eq in H.
  unfold seq_next in H. destruct (q_next q <? q_limit q) eqn:El.
  - exfalso. apply N.ltb_lt in El.
    assert (Ln : N.lxor iv (q_next q) < 256 ^ N.of_nat 12).
    { change (256 ^ N.of_nat 12) with (2 ^ 96). change (256 ^ 12) with (2 ^ 96) in *. apply lxor_lt; [exact Li|].
      change (2 ^ 64) with 18446744073709551616 in Lq. change (2 ^ 96) with 79228162514264337593543950336. lia. }
    rewrite (to_bytes_lt 12) in H by exact Ln. unfold bind, modify, ret, lift in H. cbv beta iota zeta in H. rewrite As, N.eqb_refl in H. discriminate H.
  - apply N.ltb_ge in El. unfold bind, modify, lift in H. injection H; intros <- _.
    cbn [c_cipher cset_cipher c_log]. split; [|split; [reflexivity | exists q; auto]].
    f_equal. apply cs_set_w_id. destruct (cs_w x), q. cbn in *. congruence.
Qed.

Lemma fragments_log C ct mfl : aead_sized C -> valid_mfl mfl -> ct < 256 -> ct <> 0 -> forall l c x r c', c_cipher c = Some x -> wired x ->
  Forall (fun f => blen f + 1 + tag_length (cs_suite x) <= mfl) l -> send_fragments C ct mfl l c = (r, c') ->
  exists l1 l2, l = l1 ++ l2 /\ c_cipher c' = Some (bumps (length l1) x) /\ c_log c' = rev (seals ct mfl x l1) ++ c_log c /\
    chain (cs_suite x) (cs_w x) (seals ct mfl x l1) /\ (l2 = [] \/ stuck (cs_w (bumps (length l1) x))).
Proof.
  intros As V Lc Zc. induction l as [|f l IH]; intros c x r c' Ex W Fl H; cbn [send_fragments] in H.
  - injection H; intros <- _. exists [], []. cbn. auto 10.
  - inversion Fl as [|? ? L1 L2]; subst. clear Fl.
    rewrite bind_get in H. replace (enc_on c) with true in H.
    2: { unfold enc_on, must_encrypt. rewrite Ex. destruct W as (k & _ & _ & -> & _). reflexivity. }
    unfold bind at 1 in H. unfold bind at 1 in H.
    destruct (encrypt_fragment C ct mfl f c) as [re c1] eqn:E1.
    pose proof (encrypt_fragment_or C ct mfl f c re c1 x As V Ex W L1 E1) as K. destruct re as [b|e].
    2: { injection H; intros <- _. destruct K as (K1 & K2 & K3). exists [], (f :: l). cbn [length bumps seals rev app chain]. auto 10. }
    destruct K as (Lb & R & K1 & K2). unfold lift in H. rewrite record_bytes_eq in H by exact Lb.
    unfold bind in H. destruct (send_fragments C ct mfl l c1) as [r2 c2] eqn:E2.
    assert (c2 = c') by (destruct r2; injection H; intros; subst; reflexivity). subst c2. clear H.
    destruct (IH c1 (bump_w x) r2 c' K1 (wired_bump x W) L2 E2) as (l1 & l2 & -> & A & B & D & G).
    exists (f :: l1), l2. split; [reflexivity|]. cbn [length bumps seals rev]. split; [exact A|]. split; [|split; [|exact G]].
    + rewrite B, K2, <- app_assoc. reflexivity.
    + cbn [chain]. repeat (split; [reflexivity|]). split; [exact R|]. split; [|exact D].
      exists ct, f. split; [exact Lc|]. split; [exact Zc|]. eexists. reflexivity.
Qed.

(* application data and alerts, whether the call succeeds or not *)
Lemma send_log C k c r c' x : aead_sized C -> mfl_good c -> c_cipher c = Some x -> wired x ->
  match k with KAppData _ | KAlert _ _ => True | _ => False end -> send_content C k c = (r, c') ->
  exists E, c_log c' = rev E ++ c_log c /\ c_cipher c' = Some (bumps (length E) x) /\ chain (cs_suite x) (cs_w x) E /\
    let p := match k with KAppData d => if can_send_app (c_state c) then d else [] | _ => [] end in
    payload E = p \/ stuck (cs_w (bumps (length E) x)) /\ prefix (payload E) p.
Proof.
  intros As M Ex W Hk H.
  assert (No : c' = c -> match k with KAppData d => if can_send_app (c_state c) then d else [] | _ => [] end = [] ->
     exists E, c_log c' = rev E ++ c_log c /\ c_cipher c' = Some (bumps (length E) x) /\ chain (cs_suite x) (cs_w x) E /\
    let p := match k with KAppData d => if can_send_app (c_state c) then d else [] | _ => [] end in
    payload E = p \/ stuck (cs_w (bumps (length E) x)) /\ prefix (payload E) p).
  { intros -> Hp. exists []. cbn [rev app length bumps chain]. repeat (split; [assumption || reflexivity || exact I|]). left. symmetry. exact Hp. }
  unfold send_content in H. rewrite bind_get in H.
  destruct ((content_type k =? CT_APPDATA) && negb (can_send_app (c_state c))) eqn:E1.
  { apply No; [injection H; auto|]. apply andb_prop in E1. destruct E1 as [_ E1]. apply negb_true_iff in E1. rewrite E1. destruct k; reflexivity. }
  destruct (negb (can_send (c_state c))) eqn:E2.
  { apply No; [injection H; auto|]. destruct k as [| | |d|]; try reflexivity. cbn [content_type] in E1. rewrite N.eqb_refl in E1. cbn [andb] in E1.
    destruct (c_state c); try discriminate; cbn in *; try reflexivity; congruence. }
  assert (Hs : exists data, ser_content C k = data /\ (forall d, k = KAppData d -> data = Ok d)).
  { eexists. split; [reflexivity|]. intros d ->. reflexivity. }
  destruct Hs as (data & Hs & Hd).
  assert (H' : (do data <- lift data; do c <- get; do fragments <- lift (fragments_of (fragment_limit c) (can_fragment k) data);
     do out <- send_fragments C (content_type k) (max_frag c) fragments; modify (fun c => cset_out (c_out c ++ out) c)) c = (r, c')).
  { rewrite <- Hs. destruct k; try contradiction; exact H. }
  clear H. unfold bind at 1, lift in H'. destruct data as [data|e].
  2: { apply No; [injection H'; auto|]. destruct k; try reflexivity. specialize (Hd _ eq_refl). discriminate. }
  rewrite bind_get in H'. unfold bind at 1 in H'.
  destruct (fragments_of _ _ _) as [fl|e] eqn:Ef.
  2: { apply No; [injection H'; auto|]. destruct k; try reflexivity. unfold fragments_of in Ef. destruct (_ <=? _); discriminate. }
  pose proof (mfl_good_max _ M) as V. pose proof (valid_mfl_range _ V) as Vr.
  assert (En : enc_on c = true). { unfold enc_on, must_encrypt. rewrite Ex. destruct W as (kk & _ & _ & -> & _). reflexivity. }
  assert (Lm : fragment_limit c = max_frag c - (1 + tag_length (cs_suite x))).
  { unfold fragment_limit, tag_len. rewrite En, Ex. reflexivity. }
  pose proof (tag_small (cs_suite x)) as Ts.
  assert (P : pieces (fragment_limit c) data fl) by (eapply fragments_of_spec; [|exact Ef]; lia).
  destruct P as (P1 & P2 & _).
  unfold bind in H'. destruct (send_fragments C (content_type k) (max_frag c) fl c) as [r1 c1] eqn:Es.
  assert (Kt : content_type k < 256 /\ content_type k <> 0) by (destruct k; try contradiction; split; first [reflexivity | discriminate]).
  destruct (fragments_log C (content_type k) (max_frag c) As V (proj1 Kt) (proj2 Kt) fl c x r1 c1 Ex W) as (l1 & l2 & El & A & B & D & G); [|exact Es|].
  { eapply Forall_impl; [|exact P2]. cbv beta. intros f Hf. lia. }
  assert (L : length (seals (content_type k) (max_frag c) x l1) = length l1).
  { clear. revert x. induction l1 as [|f l IH]; intro x; [reflexivity|]. cbn [seals length]. rewrite IH. reflexivity. }
  exists (seals (content_type k) (max_frag c) x l1). rewrite L.
  split; [destruct r1; injection H'; intros <- _; exact B|].
  split; [destruct r1; injection H'; intros <- _; exact A|]. split; [exact D|]. cbv zeta.
  rewrite seals_payload by apply Kt.
  destruct k as [|? ?| |d|]; try contradiction.
  - left. reflexivity.
  - cbn [content_type] in *. rewrite N.eqb_refl in *. cbn [andb] in E1. apply negb_false_iff in E1. rewrite E1.
    specialize (Hd d eq_refl). injection Hd; intros ->. destruct G as [->|G].
    + left. rewrite app_nil_r in El. subst l1. exact P1.
    + right. split; [exact G|]. exists (concat l2). rewrite <- P1, El, concat_app. reflexivity.
Qed.
