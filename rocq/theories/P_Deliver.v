(* C01: application data over a faithful network. *)
From Verif Require Import Base P_Base Iana Crypto Config Serial Ext Msg Hkdf Cipher Kex Sig Ocsp Transcript Conn S_Hist S_Conn S_Send S_Deliver P_Monad P_Frame P_Rec P_Send P_Hist P_Wire P_Buf S_Alert P_Alert.

(* --- one send --- *)
Lemma send_one C d c c' x : c_cipher c = Some x -> must_encrypt x = true -> valid_mfl (max_frag c) ->
  short c d -> send_data C d c = (Ok tt, c') ->
  let s := seal_at CT_APPDATA (max_frag c) x d in
  ready (cs_w x) /\
  blen (cr_seal C (cs_suite x) (se_key s) (se_nonce s) (se_data s) (se_aad s))
    = blen (se_data s) + tag_length (cs_suite x) /\
  blen (se_data s) + tag_length (cs_suite x) < 65536 /\
  c' = cset_out (c_out c ++ sealed_record C (cs_suite x) s)
         (cset_log (s :: c_log c) (cset_cipher (Some (bump_w x)) c)).
Proof.
  intros Ex Em V S H. unfold short, limit_of in S. rewrite Ex, Em in S.
  unfold send_data in H. apply send_content_inv in H; [|reflexivity].
  destruct H as (_ & _ & data & c1 & frags & out & c2 & A & _ & B & D & E & F).
  cbn in A. injection A as <-. cbn in B. subst c1.
  unfold fragments_of, fragment_limit, enc_on, tag_len in D. rewrite Ex, Em in D.
  replace (blen d <=? _) with true in D by (symmetry; apply N.leb_le; lia).
  injection D as <-. cbn [content_type] in E.
  assert (R : ready (cs_w x)).
  { cbn [send_fragments] in E. rewrite bind_get in E. unfold enc_on in E. rewrite Ex, Em in E.
    unfold bind at 1 2 in E. destruct (encrypt_fragment C CT_APPDATA (max_frag c) d c) as [[b|e] c3] eqn:G; [|discriminate].
    apply (encrypt_fragment_ok _ _ _ _ _ _ _ _ Ex) in G. apply G. }
  apply (send_fragments_enc C CT_APPDATA (max_frag c) [d] c out c2 x Ex Em) in E.
  cbn [seals map concat length bumps rev app] in E. rewrite app_nil_r in E.
  destruct E as (E1 & E2 & E3). inversion E2 as [|? ? [E4 E5] _]; subst.
  split; [exact R|]. split; [exact E4|]. split; [exact E5|]. reflexivity.
Qed.

(* --- one record read --- *)
Definition bump_r (y : cs) : cs := cs_set_r y (bump_dir (cs_r y)).

Lemma record_head ty p rest : ty < 256 -> blen p < 65536 ->
  record_length (record ty p ++ rest) = blen p /\
  btake 5 (record ty p ++ rest) = Nb ty :: x03 :: x03 :: be_bytes 2 (blen p) /\
  btake (blen p) (bdrop 5 (record ty p ++ rest)) = p /\
  bdrop (blen p + 5) (record ty p ++ rest) = rest /\
  blen (record ty p) = blen p + 5.
Proof.
  intros T P.
  assert (E : record ty p ++ rest = [Nb ty; x03; x03] ++ be_bytes 2 (blen p) ++ p ++ rest).
  { unfold record. cbn [app]. rewrite <- app_assoc. reflexivity. }
  rewrite E. unfold record_length.
  assert (L2 : blen (be_bytes 2 (blen p)) = 2) by (rewrite blen_be_bytes; reflexivity).
  rewrite (bdrop_app_exact' 3 [Nb ty; x03; x03]) by reflexivity.
  rewrite (btake_app_exact' 2) by (rewrite L2; reflexivity).
  rewrite of_be_bytes by (change (256 ^ N.of_nat 2) with 65536; lia).
  split; [reflexivity|].
  rewrite app_assoc.
  assert (L5 : blen ([Nb ty; x03; x03] ++ be_bytes 2 (blen p)) = 5) by (rewrite blen_app, L2; reflexivity).
  rewrite (btake_app_exact' 5) by (rewrite L5; reflexivity).
  rewrite (bdrop_app_exact' 5) by (rewrite L5; reflexivity).
  split; [reflexivity|]. rewrite btake_app_exact. split; [reflexivity|].
  rewrite app_assoc. split.
  - apply bdrop_app_exact'. rewrite blen_app, L5. lia.
  - unfold record. rewrite 3 blen_cons, blen_app, L2. lia.
Qed.

Lemma skip_ccs_app b : skip_ccs (x17 :: b) = x17 :: b.
Proof. reflexivity. Qed.

(* a decrypting endpoint that is neither in a handshake nor in the middle of a
   handshake message, with [i] in its input buffer *)
Definition hears (c : conn) (y : cs) (i : bytes) : Prop :=
  established (c_state c) = true /\ c_inhs c = [] /\ c_in c = i /\ c_cipher c = Some y /\ must_decrypt y = true.

Lemma process_appdata C d c : established (c_state c) = true ->
  process C (KAppData d) c = (Ok tt, cset_app (c_app c ++ d) c).
Proof.
  intro H. unfold process. rewrite bind_get.
  destruct (c_state c) as [ | | | | | | | | | | |r w| ]; try discriminate; [reflexivity|].
  destruct r; [reflexivity | discriminate].
Qed.

Lemma read_one C c y x mfl d rest : aead_correct C ->
  let s := seal_at CT_APPDATA mfl x d in
  hears c y (sealed_record C (cs_suite x) s ++ rest) ->
  blen (cr_seal C (cs_suite x) (se_key s) (se_nonce s) (se_data s) (se_aad s))
    = blen (se_data s) + tag_length (cs_suite x) ->
  blen (se_data s) + tag_length (cs_suite x) < 65536 ->
  blen (se_data s) + tag_length (cs_suite x) <= max_frag c + 256 ->
  ready (cs_w x) -> cs_suite y = cs_suite x -> d_key (cs_r y) = d_key (cs_w x) ->
  d_iv (cs_r y) = d_iv (cs_w x) -> d_seq (cs_r y) = d_seq (cs_w x) ->
  guarded C (receive_one C) c =
    (Ok true, cset_app (c_app c ++ d) (cset_cipher (Some (bump_r y)) (cset_in rest c))).
Proof.
  intros AC s (He & Hi & Hc & Hy & Hd) L1 L2 L3 (k & iv & q & R1 & R2 & R3 & R4 & R5) Hs Hk Hv Hq.
  set (p := cr_seal C (cs_suite x) (se_key s) (se_nonce s) (se_data s) (se_aad s)) in *.
  assert (Rec : sealed_record C (cs_suite x) s = record CT_APPDATA p) by reflexivity.
  rewrite Rec in Hc.
  destruct (record_head CT_APPDATA p rest) as (H1 & H2 & H3 & H4 & H5); [reflexivity | lia |].
  assert (RR : read_next_record C c =
    (Ok (Some (CT_APPDATA, d)), cset_cipher (Some (bump_r y)) (cset_in rest c))).
  { rewrite read_record_eq. cbv zeta. rewrite Hc.
    assert (Sk : skip_ccs (record CT_APPDATA p ++ rest) = record CT_APPDATA p ++ rest) by reflexivity.
    rewrite Sk, H1. unfold rec_max, dec_on. rewrite Hy, Hd.
    replace (_ <? 5) with false by (symmetry; apply N.ltb_ge; rewrite blen_app, H5; lia).
    replace (_ <? blen p) with false by (symmetry; apply N.ltb_ge; lia).
    replace (_ - 5 <? blen p) with false by (symmetry; apply N.ltb_ge; rewrite blen_app, H5; lia).
    unfold unprotect. rewrite bind_get. cbv zeta. rewrite H1, H2, H3, H4.
    unfold dec_on. change (c_cipher (cset_in rest c)) with (c_cipher c). rewrite Hy, Hd.
    unfold bind at 1. unfold on_cipher. rewrite bind_get.
    change (c_cipher (cset_in rest c)) with (c_cipher c). rewrite Hy.
    unfold decrypt. rewrite Hk, R1. unfold next_nonce. rewrite Hv, R2, Hq, R3.
    unfold seq_next. apply N.ltb_lt in R4. rewrite R4, (to_bytes_lt 12) by exact R5.
    rewrite Hs.
    assert (O : cr_open C (cs_suite x) k (be_bytes 12 (N.lxor iv (q_next q))) p
                  (Nb CT_APPDATA :: x03 :: x03 :: be_bytes 2 (blen p)) = Some (se_data s)).
    { unfold p, s, seal_at. cbn [se_key se_nonce se_data se_aad].
      unfold key_of, nonce_of, aad_of. rewrite R1, R2, R3.
      match goal with |- cr_open _ _ _ _ ?P ?A = _ => replace A with
        (Nb CT_APPDATA :: x03 :: x03 :: be_bytes 2 (blen (se_data s) + tag_length (cs_suite x))) end.
      2:{ rewrite <- L1. unfold p, s, seal_at. cbn [se_key se_nonce se_data se_aad].
          unfold key_of, nonce_of, aad_of. rewrite R1, R2, R3. reflexivity. }
      unfold s, seal_at. cbn [se_data]. apply AC. }
    rewrite O. rewrite bind_modify. unfold lift.
    unfold s, seal_at. cbn [se_data].
    destruct (inner_sender (KAppData []) mfl (tag_length (cs_suite x)) d) as (n & _ & I).
    cbn [content_type] in I. rewrite I.
    change (CT_APPDATA =? CT_CCS) with false. cbv iota.
    unfold bump_r, bump_dir. rewrite Hk, Hq, R1, R3, Hv, R2. reflexivity. }
  unfold guarded, receive_one, read_next_content.
  unfold bind at 1 2. rewrite RR. rewrite bind_get. cbn [c_inhs cset_cipher cset_in]. rewrite Hi.
  change (is_nil [] && negb (CT_APPDATA =? CT_HANDSHAKE)) with true. cbv iota. unfold ret at 1. cbv iota.
  unfold handle_content. unfold bind at 1. rewrite bind_get. unfold lift at 1. unfold bind at 1. rewrite parse_appdata.
  unfold bind at 1. unfold ret at 1.
  rewrite process_appdata by (cbn [c_state cset_cipher cset_in]; exact He). reflexivity.
Qed.

(* --- the stream of records carrying [ds], sealed from [x] on --- *)
Definition streamed (C : crypto) (mfl : N) (x : cs) (ds : list bytes) : bytes :=
  concat (map (sealed_record C (cs_suite x)) (seals CT_APPDATA mfl x ds)).
(* each record of it fits and can be sealed *)
Fixpoint fits (C : crypto) (mfl mx : N) (x : cs) (ds : list bytes) : Prop :=
  match ds with
  | [] => True
  | d :: ds' =>
    let s := seal_at CT_APPDATA mfl x d in
    ready (cs_w x) /\
    blen (cr_seal C (cs_suite x) (se_key s) (se_nonce s) (se_data s) (se_aad s))
      = blen (se_data s) + tag_length (cs_suite x) /\
    blen (se_data s) + tag_length (cs_suite x) < 65536 /\
    blen (se_data s) + tag_length (cs_suite x) <= mx /\
    fits C mfl mx (bump_w x) ds'
  end.
Definition mirrored (x y : cs) : Prop :=
  cs_suite y = cs_suite x /\ d_key (cs_r y) = d_key (cs_w x) /\
  d_iv (cs_r y) = d_iv (cs_w x) /\ d_seq (cs_r y) = d_seq (cs_w x).
Lemma mirrored_bump x y : mirrored x y -> mirrored (bump_w x) (bump_r y).
Proof.
  intros (A & B & D & E). unfold bump_w, bump_r, bump_dir. rewrite E.
  destruct (d_seq (cs_w x)) eqn:Q; repeat split; cbn; congruence.
Qed.
Lemma streamed_cons C mfl x d ds : streamed C mfl x (d :: ds) =
  sealed_record C (cs_suite x) (seal_at CT_APPDATA mfl x d) ++ streamed C mfl (bump_w x) ds.
Proof. reflexivity. Qed.
Lemma must_decrypt_bump y : must_decrypt (bump_r y) = must_decrypt y.
Proof. unfold must_decrypt, bump_r. cbn. rewrite bump_key. reflexivity. Qed.

Lemma app_split (A : Type) (a b c d : list A) : a ++ b = c ++ d -> (length c <= length a)%nat ->
  exists m, a = c ++ m /\ d = m ++ b.
Proof.
  revert a. induction c as [|z c IH]; intros a H L.
  - exists a. split; [reflexivity|]. symmetry. exact H.
  - destruct a as [|w a]; [cbn in L; lia|]. cbn in H. injection H as -> H.
    destruct (IH a H) as (m & -> & ->); [cbn in L; lia|]. exists m. split; reflexivity.
Qed.

Fixpoint rbumps (n : nat) (y : cs) : cs := match n with O => y | S n' => rbumps n' (bump_r y) end.

Lemma read_stop C c x y mfl d ds t :
  let s := seal_at CT_APPDATA mfl x d in
  let p := cr_seal C (cs_suite x) (se_key s) (se_nonce s) (se_data s) (se_aad s) in
  hears c y (c_in c) -> c_in c ++ t = streamed C mfl x (d :: ds) ->
  blen p < 65536 -> blen p <= max_frag c + 256 -> blen (c_in c) < blen (record CT_APPDATA p) ->
  guarded C (receive_one C) c = (Ok false, c).
Proof.
  intros s p (He & Hi & _ & Hy & Hd) Eq P1 P2 L. rewrite streamed_cons in Eq.
  fold s in Eq. unfold sealed_record in Eq. fold p in Eq.
  set (T := streamed C mfl (bump_w x) ds) in Eq.
  assert (Sk : skip_ccs (c_in c) = c_in c).
  { destruct (c_in c) as [|b0 i]; [reflexivity|]. cbn [app record] in Eq. injection Eq as -> _. reflexivity. }
  assert (Nn : read_next_record C c = (Ok None, c)).
  { rewrite read_record_eq. cbv zeta. rewrite Sk.
    replace (cset_in (c_in c) c) with c by (destruct c; reflexivity).
    destruct (blen (c_in c) <? 5) eqn:E; [reflexivity|]. apply N.ltb_ge in E.
    destruct (record_head CT_APPDATA p T) as (H1 & H2 & H3 & H4 & H5); [reflexivity | exact P1 |].
    assert (RL : record_length (c_in c) = blen p).
    { rewrite <- H1, <- Eq. unfold record_length.
      rewrite bdrop_app_le by lia. rewrite btake_app_le by (rewrite blen_bdrop; lia). reflexivity. }
    rewrite RL. unfold rec_max, dec_on. rewrite Hy, Hd.
    replace (_ <? blen p) with false by (symmetry; apply N.ltb_ge; lia).
    replace (_ - 5 <? blen p) with true by (symmetry; apply N.ltb_lt; lia). reflexivity. }
  unfold guarded, receive_one, read_next_content. unfold bind at 1 2. rewrite Nn. reflexivity.
Qed.

Lemma read_empty C c : c_in c = [] -> guarded C (receive_one C) c = (Ok false, c).
Proof.
  intro H. assert (read_next_record C c = (Ok None, c)) as N1.
  { rewrite read_record_eq. cbv zeta. rewrite H. cbn [skip_ccs].
    change (blen [] <? 5) with true. cbv iota. destruct c; cbn in *; subst; reflexivity. }
  unfold guarded, receive_one, read_next_content. unfold bind at 1 2. rewrite N1. reflexivity.
Qed.

Lemma loop_stream C mfl mx : aead_correct C -> forall ds x y c t,
  hears c y (c_in c) -> mirrored x y -> mx <= max_frag c + 256 ->
  fits C mfl mx x ds -> c_in c ++ t = streamed C mfl x ds ->
  exists ds1 ds2 i, ds = ds1 ++ ds2 /\
    loops C c (Ok tt, cset_app (c_app c ++ concat ds1)
                        (cset_cipher (Some (rbumps (length ds1) y)) (cset_in i c))) /\
    mirrored (bumps (length ds1) x) (rbumps (length ds1) y) /\
    must_decrypt (rbumps (length ds1) y) = true /\
    fits C mfl mx (bumps (length ds1) x) ds2 /\
    i ++ t = streamed C mfl (bumps (length ds1) x) ds2 /\ (t = [] -> ds2 = []).
Proof.
  intro AC. induction ds as [|d ds IH]; intros x y c t Hh Hm Hx Hf Heq.
  - cbn in Heq. apply app_eq_nil in Heq. destruct Heq as [E ->].
    exists [], [], []. split; [reflexivity|]. split.
    + apply loops_stop. rewrite read_empty by exact E. cbn [length rbumps concat].
      rewrite app_nil_r. destruct Hh as (_ & _ & _ & Hy & _).
      destruct c; cbn in *; subst; reflexivity.
    + cbn. split; [exact Hm|]. split; [apply Hh|]. auto.
  - destruct Hf as (F1 & F2 & F3 & F4 & F5).
    set (s := seal_at CT_APPDATA mfl x d) in *.
    set (p := cr_seal C (cs_suite x) (se_key s) (se_nonce s) (se_data s) (se_aad s)) in *.
    destruct (N.lt_ge_cases (blen (c_in c)) (blen (record CT_APPDATA p))) as [L|L].
    + exists [], (d :: ds), (c_in c). split; [reflexivity|]. split.
      * apply loops_stop. rewrite (read_stop C c x y mfl d ds t Hh Heq) by (fold s p; lia).
        cbn [length rbumps concat]. rewrite app_nil_r. destruct Hh as (_ & _ & _ & Hy & _).
        destruct c; cbn in *; subst; reflexivity.
      * cbn [length rbumps bumps]. split; [exact Hm|]. split; [apply Hh|].
        split; [repeat split; assumption|]. split; [exact Heq|].
        intros ->. rewrite app_nil_r in Heq. rewrite Heq, streamed_cons, blen_app in L.
        unfold sealed_record in L. fold s p in L. lia.
    + rewrite streamed_cons in Heq. fold s in Heq.
      destruct (app_split _ _ _ _ _ Heq) as (m & Hi & Ht).
      { unfold blen in L. unfold sealed_record. fold p. lia. }
      destruct Hm as (M1 & M2 & M3 & M4).
      assert (St : guarded C (receive_one C) c =
        (Ok true, cset_app (c_app c ++ d) (cset_cipher (Some (bump_r y)) (cset_in m c)))).
      { apply (read_one C c y x mfl d m AC); try assumption.
        - fold s. destruct Hh as (A & B & _ & D & E). repeat split; auto.
        - fold s. lia. }
      set (c1 := cset_app (c_app c ++ d) (cset_cipher (Some (bump_r y)) (cset_in m c))) in *.
      destruct (IH (bump_w x) (bump_r y) c1 t) as (ds1 & ds2 & i & E1 & E2 & E3 & E4 & E5 & E6 & E7).
      { destruct Hh as (A & B & _ & D & E). repeat split; auto. rewrite must_decrypt_bump. exact E. }
      { apply mirrored_bump. repeat split; assumption. }
      { exact Hx. } { exact F5. } { exact (eq_sym Ht). }
      exists (d :: ds1), ds2, i. split; [cbn; congruence|]. split.
      { apply (loops_more C c c1); [exact St|].
        replace (cset_app (c_app c ++ concat (d :: ds1)) (cset_cipher (Some (rbumps (length (d :: ds1)) y)) (cset_in i c)))
          with (cset_app (c_app c1 ++ concat ds1) (cset_cipher (Some (rbumps (length ds1) (bump_r y))) (cset_in i c1))).
        - exact E2.
        - unfold c1. cbn [concat length rbumps]. destruct c; cbn. rewrite <- app_assoc. reflexivity. }
      cbn [length rbumps bumps]. auto.
Qed.

Lemma receive_data_stream C mfl mx p : aead_correct C -> forall ds x y c t,
  p <> [] -> hears c y (c_in c) -> mirrored x y -> mx <= max_frag c + 256 ->
  fits C mfl mx x ds -> c_in c ++ p ++ t = streamed C mfl x ds ->
  exists ds1 ds2 i, ds = ds1 ++ ds2 /\
    after C (ORecv p) c = cset_app (c_app c ++ concat ds1)
                        (cset_cipher (Some (rbumps (length ds1) y)) (cset_in i c)) /\
    mirrored (bumps (length ds1) x) (rbumps (length ds1) y) /\
    must_decrypt (rbumps (length ds1) y) = true /\
    fits C mfl mx (bumps (length ds1) x) ds2 /\
    i ++ t = streamed C mfl (bumps (length ds1) x) ds2 /\ (t = [] -> ds2 = []).
Proof.
  intros AC ds x y c t Hp Hh Hm Hx Hf Heq.
  destruct (loop_stream C mfl mx AC ds x y (cset_in (c_in c ++ p) c) t) as (ds1 & ds2 & i & E1 & E2 & E3).
  { destruct Hh as (A & B & _ & D & E). repeat split; auto. }
  { exact Hm. } { exact Hx. } { exact Hf. } { cbn [c_in cset_in]. rewrite <- app_assoc. exact Heq. }
  exists ds1, ds2, i. split; [exact E1|]. split; [|exact E3].
  assert (Hr : can_receive (c_state c) = true).
  { destruct Hh as (A & _). destruct (c_state c) as [ | | | | | | | | | | |r w| ]; try discriminate; try reflexivity.
    destruct r; [reflexivity|discriminate]. }
  destruct (receive_data_loops C p c Hp Hr) as (z & Z1 & Z2 & _).
  pose proof (loops_fun _ _ _ Z1 _ E2) as ->.
  unfold after, step. unfold bind. destruct (receive_data C p c) as [r c1]. cbn [snd] in Z2. subst c1.
  destruct r as [[]|]; cbn [snd ret]; destruct c; reflexivity.
Qed.

(* --- the invariant of one direction --- *)
Definition flow (C : crypto) (a b : conn) (net sent got : bytes) : Prop :=
  exists xa yb x ds n,
    c_cipher a = Some xa /\ must_encrypt xa = true /\ valid_mfl (max_frag a) /\
    max_frag a <= max_frag b + 256 /\
    hears b yb (c_in b) /\ mirrored x yb /\
    cs_suite x = cs_suite xa /\ n = length ds /\ cs_w (bumps n x) = cs_w xa /\
    fits C (max_frag a) (max_frag a) x ds /\
    c_in b ++ net ++ c_out a = streamed C (max_frag a) x ds /\
    got ++ c_app b ++ concat ds = sent /\ (net ++ c_out a = [] -> ds = []).

Lemma bumps_app n m x : bumps (n + m) x = bumps m (bumps n x).
Proof. revert x. induction n; intro x; cbn; auto. Qed.
Lemma seals_app ct mfl l1 : forall x l2, seals ct mfl x (l1 ++ l2) =
  seals ct mfl x l1 ++ seals ct mfl (bumps (length l1) x) l2.
Proof. induction l1; intros; cbn; [reflexivity|]. rewrite IHl1. reflexivity. Qed.
Lemma streamed_app C mfl x l1 l2 : streamed C mfl x (l1 ++ l2) =
  streamed C mfl x l1 ++ streamed C mfl (bumps (length l1) x) l2.
Proof. unfold streamed. rewrite seals_app, map_app, concat_app, bumps_out. reflexivity. Qed.
Lemma fits_app C mfl mx l1 : forall x l2, fits C mfl mx x l1 -> fits C mfl mx (bumps (length l1) x) l2 ->
  fits C mfl mx x (l1 ++ l2).
Proof. induction l1; intros x l2 A B; cbn in *; [exact B|]. intuition. Qed.

Lemma seal_at_w ct mfl x x' d : cs_w x = cs_w x' -> cs_suite x = cs_suite x' ->
  seal_at ct mfl x d = seal_at ct mfl x' d.
Proof. intros A B. unfold seal_at. rewrite A, B. reflexivity. Qed.

Section flows.
Variable C : crypto.
Hypothesis AC : aead_correct C.

Lemma flow_send a b net sent got d :
  flow C a b net sent got -> short a d -> fst (step C (OSend d) a) = Ok [] ->
  flow C (after C (OSend d) a) b net (sent ++ d) got /\
  c_state (after C (OSend d) a) = c_state a /\ c_in (after C (OSend d) a) = c_in a /\
  c_inhs (after C (OSend d) a) = c_inhs a /\ c_app (after C (OSend d) a) = c_app a /\
  max_frag (after C (OSend d) a) = max_frag a /\
  exists x, c_cipher a = Some x /\ c_cipher (after C (OSend d) a) = Some (bump_w x).
Proof.
  intros (xa & yb & x & ds & n & F1 & F2 & F3 & F4 & F5 & F6 & F7 & F8 & F9 & F10 & F11 & F12 & F13) S H.
  destruct (send_data C d a) as [[[]|e] a'] eqn:E.
  2:{ unfold step, bind in H. rewrite E in H. discriminate. }
  assert (Af : after C (OSend d) a = a') by (unfold after, step, bind; rewrite E; reflexivity).
  rewrite Af. clear H Af.
  pose proof (send_one C d a a' xa F1 F2 F3 S E) as (S1 & S2 & S3 & S4). subst a'.
  set (s := seal_at CT_APPDATA (max_frag a) xa d) in *.
  split; [|repeat split; exists xa; split; [exact F1 | reflexivity]].
  assert (Sx : seal_at CT_APPDATA (max_frag a) (bumps n x) d = s).
  { apply seal_at_w; [exact F9 | rewrite bumps_out; exact F7]. }
  exists (bump_w xa), yb, x, (ds ++ [d]), (n + 1)%nat.
  split; [reflexivity|]. split; [unfold must_encrypt, bump_w in *; cbn; rewrite bump_key; exact F2|].
  split; [exact F3|]. split; [exact F4|]. split; [exact F5|]. split; [exact F6|]. split; [exact F7|].
  split; [rewrite app_length, F8; reflexivity|].
  split; [rewrite bumps_app; cbn [bumps]; unfold bump_w; rewrite F9; reflexivity|].
  change (max_frag (cset_out _ _)) with (max_frag a).
  split; [|split; [|split]].
  - apply fits_app; [exact F10|]. rewrite <- F8. cbn [fits]. rewrite Sx, bumps_out, F7, F9.
    split; [exact S1|]. split; [exact S2|]. split; [exact S3|]. split; [|exact I].
    unfold short, limit_of in S. rewrite F1, F2 in S.
    pose proof (pad_short (max_frag a) (tag_length (cs_suite xa)) (blen d) F3) as P.
    unfold s, seal_at. cbn [se_data]. rewrite blen_inner. specialize (P ltac:(lia)). lia.
  - rewrite streamed_app, <- F11, <- F8. unfold streamed. cbn [seals map concat].
    rewrite Sx, bumps_out, F7, app_nil_r. cbn [c_out cset_out]. rewrite !app_assoc. reflexivity.
  - rewrite concat_app. cbn [concat]. rewrite app_nil_r, <- F12, !app_assoc. reflexivity.
  - cbn [c_out cset_out]. intro Z. apply app_eq_nil in Z. destruct Z as [_ Z].
    apply app_eq_nil in Z. destruct Z as [_ Z]. discriminate.
Qed.

Lemma after_flush c : after C OFlush c = cset_out [] c /\ returned C OFlush c = c_out c.
Proof. split; reflexivity. Qed.
Lemma after_read c : after C ORead c = cset_app [] c /\ returned C ORead c = c_app c.
Proof. split; reflexivity. Qed.

Lemma flow_flush a b net sent got : flow C a b net sent got ->
  flow C (cset_out [] a) b (net ++ c_out a) sent got.
Proof.
  intros (xa & yb & x & ds & n & F1 & F2 & F3 & F4 & F5 & F6 & F7 & F8 & F9 & F10 & F11 & F12 & F13).
  exists xa, yb, x, ds, n. repeat (split; [assumption|]).
  cbn [c_out cset_out]. rewrite app_nil_r. split; [exact F11|]. split; [exact F12 | exact F13].
Qed.
Lemma flow_read a b net sent got : flow C a b net sent got ->
  flow C a (cset_app [] b) net sent (got ++ c_app b).
Proof.
  intros (xa & yb & x & ds & n & F1 & F2 & F3 & F4 & F5 & F6 & F7 & F8 & F9 & F10 & F11 & F12 & F13).
  exists xa, yb, x, ds, n. repeat (split; [assumption|]).
  cbn [c_app cset_app app]. rewrite <- app_assoc. split; [exact F12 | exact F13].
Qed.
Lemma flow_deliver a b p rest sent got : p <> [] -> flow C a b (p ++ rest) sent got ->
  flow C a (after C (ORecv p) b) rest sent got /\
  exists y, c_cipher b = Some y /\ exists n i z,
    after C (ORecv p) b = cset_app (c_app b ++ z) (cset_cipher (Some (rbumps n y)) (cset_in i b)).
Proof.
  intros Hp (xa & yb & x & ds & n & F1 & F2 & F3 & F4 & F5 & F6 & F7 & F8 & F9 & F10 & F11 & F12 & F13).
  destruct (receive_data_stream C (max_frag a) (max_frag a) p AC ds x yb b (rest ++ c_out a))
    as (ds1 & ds2 & i & E1 & E2 & E3 & E4 & E5 & E6 & E7); auto.
  { rewrite F11 || rewrite <- F11. rewrite <- !app_assoc. reflexivity. }
  split.
  2:{ exists yb. split; [apply F5|]. exists (length ds1), i, (concat ds1). exact E2. }
  rewrite E2. exists xa, (rbumps (length ds1) yb), (bumps (length ds1) x), ds2, (length ds2).
  split; [exact F1|]. split; [exact F2|]. split; [exact F3|]. split; [exact F4|].
  split. { destruct F5 as (A & B & _ & D & E). repeat split; auto. }
  split; [exact E3|]. split; [rewrite bumps_out; exact F7|]. split; [reflexivity|].
  split. { rewrite <- bumps_app. rewrite <- app_length, <- E1, <- F8. exact F9. }
  split; [exact E5|]. split; [exact E6|].
  cbn [c_app cset_app]. rewrite <- F12, E1, concat_app, !app_assoc. split; [reflexivity | exact E7].
Qed.

(* steps of the other direction *)
Lemma rbumps_w n : forall y, cs_w (rbumps n y) = cs_w y /\ cs_suite (rbumps n y) = cs_suite y.
Proof. induction n; intro y; [split; reflexivity|]. cbn [rbumps]. destruct (IHn (bump_r y)) as [-> ->]. split; reflexivity. Qed.

Lemma flow_other_send a b a' net sent got y : flow C b a net sent got ->
  c_state a' = c_state a -> c_in a' = c_in a -> c_inhs a' = c_inhs a -> c_app a' = c_app a ->
  max_frag a' = max_frag a -> c_cipher a = Some y -> c_cipher a' = Some (bump_w y) ->
  flow C b a' net sent got.
Proof.
  intros (xa & yb & x & ds & n & F1 & F2 & F3 & F4 & F5 & F6 & F7 & F8 & F9 & F10 & F11 & F12 & F13) G1 G2 G3 G4 G5 G6 G7.
  destruct F5 as (A & B & _ & D & E). rewrite G6 in D. injection D as ->.
  exists xa, (bump_w yb), x, ds, n.
  split; [exact F1|]. split; [exact F2|]. split; [exact F3|]. split; [rewrite G5; exact F4|].
  split. { repeat split; try congruence; exact E. }
  split. { destruct F6 as (M1 & M2 & M3 & M4). repeat split; assumption. }
  split; [exact F7|]. split; [exact F8|]. split; [exact F9|]. split; [exact F10|].
  rewrite G2, G4. split; [exact F11|]. split; [exact F12 | exact F13].
Qed.
Lemma flow_other_flush a b net sent got v : flow C b a net sent got -> flow C b (cset_out v a) net sent got.
Proof. intros (xa & yb & x & ds & n & F). exists xa, yb, x, ds, n. exact F. Qed.
Lemma flow_other_read a b net sent got v : flow C a b net sent got -> flow C (cset_app v a) b net sent got.
Proof. intros (xa & yb & x & ds & n & F). exists xa, yb, x, ds, n. exact F. Qed.
Lemma flow_other_deliver a b net sent got n i z y : flow C a b net sent got -> c_cipher a = Some y ->
  flow C (cset_app z (cset_cipher (Some (rbumps n y)) (cset_in i a))) b net sent got.
Proof.
  intros (xa & yb & x & ds & k & F1 & F2 & F3 & F4 & F5 & F6 & F7 & F8 & F9 & F10 & F11 & F12 & F13) G.
  rewrite F1 in G. injection G as <-. destruct (rbumps_w n xa) as [W1 W2].
  exists (rbumps n xa), yb, x, ds, k.
  split; [reflexivity|]. split; [unfold must_encrypt in *; rewrite W1; exact F2|].
  split; [exact F3|]. split; [exact F4|]. split; [exact F5|]. split; [exact F6|].
  split; [rewrite W2; exact F7|]. split; [exact F8|]. split; [rewrite W1; exact F9|].
  split; [exact F10|]. split; [exact F11|]. split; [exact F12 | exact F13].
Qed.

Definition flows (w : world) : Prop :=
  flow C (w_a w) (w_b w) (w_ab w) (w_sent_a w) (w_got_b w) /\
  flow C (w_b w) (w_a w) (w_ba w) (w_sent_b w) (w_got_a w).
Definition states (w : world) : state * state := (c_state (w_a w), c_state (w_b w)).

Lemma flows_move w w' : moves C w w' -> flows w -> flows w' /\ states w' = states w.
Proof.
  induction 1 as [w d S R | w | w p rest E Hp | w | w w' M IH]; intros [A B].
  - destruct (flow_send _ _ _ _ _ _ A S R) as (F & G1 & G2 & G3 & G4 & G5 & y & G6 & G7).
    split; [split; cbn [w_a w_b w_ab w_ba w_sent_a w_sent_b w_got_a w_got_b]|].
    + exact F.
    + apply (flow_other_send (w_a w) (w_b w) _ _ _ _ y B); assumption.
    + unfold states. cbn [w_a w_b]. congruence.
  - destruct (after_flush (w_a w)) as [-> ->]. split; [split; cbn [w_a w_b w_ab w_ba w_sent_a w_sent_b w_got_a w_got_b]|reflexivity].
    + apply flow_flush. exact A.
    + apply flow_other_flush. exact B.
  - rewrite E in A. destruct (flow_deliver _ _ _ _ _ _ Hp A) as (F & y & G1 & n & i & z & G2).
    split; [split; cbn [w_a w_b w_ab w_ba w_sent_a w_sent_b w_got_a w_got_b]|].
    + exact F.
    + rewrite G2. apply flow_other_deliver; assumption.
    + unfold states. cbn [w_a w_b]. rewrite G2. reflexivity.
  - destruct (after_read (w_b w)) as [-> ->]. split; [split; cbn [w_a w_b w_ab w_ba w_sent_a w_sent_b w_got_a w_got_b]|reflexivity].
    + apply flow_read. exact A.
    + apply flow_other_read. exact B.
  - destruct IH as [[I1 I2] I3]; [split; assumption|]. split; [split; assumption|].
    unfold states, swap in *. cbn [w_a w_b] in *. congruence.
Qed.

Lemma flow_start a b : quiet_link a b -> flow C a b [] [] [].
Proof.
  intros ((x & y & k & K1 & K2 & K3 & K4 & K5 & K6 & K7) & V & L & O & E & I & H & P).
  exists x, y, x, [], 0%nat. split; [exact K1|]. split; [unfold must_encrypt; rewrite K4; reflexivity|].
  split; [exact V|]. split; [exact L|].
  split. { repeat split; auto. unfold must_decrypt. rewrite K5. reflexivity. }
  split. { repeat split; congruence. }
  split; [reflexivity|]. split; [reflexivity|]. split; [reflexivity|]. split; [exact Logic.I|]. rewrite I, O, P.
  split; [reflexivity|]. split; reflexivity.
Qed.

Lemma flows_traffic w w' : linked w -> traffic C w w' -> flows w' /\ states w' = states w.
Proof.
  intros (A & B & E1 & E2 & E3 & E4 & E5 & E6) T.
  assert (F : flows w).
  { unfold flows. rewrite E1, E2, E3, E4, E5, E6. split; apply flow_start; assumption. }
  clear - T F AC. induction T as [w | w w1 w2 T IH M]; [auto|].
  destruct (IH F) as [G H]. destruct (flows_move _ _ M G) as [G' H']. split; [exact G' | congruence].
Qed.

Lemma flow_prefix a b net sent got : flow C a b net sent got -> prefix (got ++ c_app b) sent.
Proof.
  intros (xa & yb & x & ds & n & F). exists (concat ds).
  rewrite <- app_assoc. symmetry. apply F.
Qed.
Lemma flow_all a b sent got : flow C a b [] sent got -> c_out a = [] ->
  got ++ c_app b = sent /\ keyed a b /\ quiet_link a (cset_app [] b).
Proof.
  intros (xa & yb & x & ds & n & F1 & F2 & F3 & F4 & F5 & F6 & F7 & F8 & F9 & F10 & F11 & F12 & F13) O.
  rewrite O in *. specialize (F13 eq_refl). subst ds n.
  cbn in F11, F12, F9. rewrite app_nil_r in F11, F12.
  assert (K : keyed a b).
  { destruct F5 as (A & B & _ & D & E). destruct F6 as (M1 & M2 & M3 & M4).
    unfold must_encrypt in F2. destruct (d_key (cs_w xa)) as [k|] eqn:K; [|discriminate].
    exists xa, yb, k. rewrite F9 in *. repeat split; congruence. }
  split; [exact F12|]. split; [exact K|].
  split; [exact K|]. split; [exact F3|]. split; [exact F4|]. split; [exact O|].
  destruct F5 as (A & B & _). split; [exact A|]. split; [exact F11|]. split; [exact B | reflexivity].
Qed.

Lemma delivered_prefix w w' : linked w -> traffic C w w' ->
  prefix (w_got_b w' ++ c_app (w_b w')) (w_sent_a w') /\
  prefix (w_got_a w' ++ c_app (w_a w')) (w_sent_b w') /\
  c_state (w_a w') = c_state (w_a w) /\ c_state (w_b w') = c_state (w_b w).
Proof.
  intros L T. destruct (flows_traffic w w' L T) as [[A B] S]. unfold states in S. injection S as S1 S2.
  split; [exact (flow_prefix _ _ _ _ _ A)|]. split; [exact (flow_prefix _ _ _ _ _ B)|]. auto.
Qed.
Lemma delivered_all w w' : linked w -> traffic C w w' -> w_ab w' = [] -> c_out (w_a w') = [] ->
  w_got_b w' ++ c_app (w_b w') = w_sent_a w' /\ keyed (w_a w') (w_b w').
Proof.
  intros L T E O. destruct (flows_traffic w w' L T) as [[A B] S]. rewrite E in A.
  destruct (flow_all _ _ _ _ A O) as (X & Y & _). auto.
Qed.
End flows.

(* sending works as long as the key may still be used *)

Lemma send_works C g a d : aead_sized C -> reachable C g a -> room a -> enc_on a = true ->
  can_send_app (c_state a) = true -> short a d -> fst (step C (OSend d) a) = Ok [].
Proof.
  intros As R Rm En Cs S. pose proof (reachable_mfl C g a R) as V. pose proof (reachable_iv C g a R) as Iv.
  pose proof En as En'. apply enc_on_inv in En'. destruct En' as (x & Ex & Em).
  unfold short, limit_of in S. rewrite Ex, Em in S.
  assert (Cs' : can_send (c_state a) = true).
  { destruct (c_state a); try discriminate; auto. }
  destruct (encrypt_goes C a x CT_APPDATA d As V Iv Rm Ex En) as (s & c1 & E1 & _ & _ & E4); [lia|].
  unfold step, send_data, send_content. unfold bind at 1. rewrite bind_get.
  rewrite Cs, Cs'. cbn [negb andb]. rewrite andb_false_r. cbn [ser_content].
  change (bind (lift (Ok d)) ?k a) with (k d a). cbv beta.
  change (bind (ret tt) ?k a) with (k tt a). cbv beta. rewrite bind_get.
  unfold fragments_of, fragment_limit, tag_len. rewrite En, Ex.
  replace (blen d <=? _) with true by (symmetry; apply N.leb_le; lia).
  change (bind (lift (Ok ?v)) ?k a) with (k v a). cbv beta.
  cbn [send_fragments content_type]. unfold bind at 1 2. unfold get at 1. rewrite En.
  unfold bind at 1 2. rewrite E1. unfold lift. rewrite record_bytes_eq by exact E4. reflexivity.
Qed.

(* a boolean test of [quiet_link], for the examples *)
Definition opt2 {A} (f : A -> A -> bool) (a b : option A) : bool :=
  match a, b with Some x, Some y => f x y | _, _ => false end.
Definition keyedb (x y : cs) : bool :=
  (cs_suite x =? cs_suite y) && opt2 beqb (d_key (cs_w x)) (d_key (cs_r y)) &&
  opt2 N.eqb (d_iv (cs_w x)) (d_iv (cs_r y)) &&
  opt2 (fun p q => (q_next p =? q_next q) && (q_limit p =? q_limit q)) (d_seq (cs_w x)) (d_seq (cs_r y)).
Definition quiet_linkb (a b : conn) : bool :=
  opt2 keyedb (c_cipher a) (c_cipher b) && memN (max_frag a) [512; 1024; 2048; 4096; 16384] &&
  (max_frag a <=? max_frag b + 256) && is_nil (c_out a) && established (c_state b) &&
  is_nil (c_in b) && is_nil (c_inhs b) && is_nil (c_app b).
Lemma quiet_linkb_ok a b : quiet_linkb a b = true -> quiet_link a b.
Proof.
  unfold quiet_linkb. rewrite !andb_true_iff.
  intros (((((((K & V) & L) & O) & E) & I) & H) & P).
  apply is_nil_true in O, I, H, P. apply memN_In in V. apply N.leb_le in L.
  split; [|repeat split; assumption].
  destruct (c_cipher a) as [x|] eqn:Ea, (c_cipher b) as [y|] eqn:Eb; try discriminate.
  cbn [opt2] in K. unfold keyedb in K. rewrite !andb_true_iff in K. destruct K as (((K1 & K2) & K3) & K4).
  unfold opt2 in K2, K3, K4.
  destruct (d_key (cs_w x)) as [k|] eqn:A1, (d_key (cs_r y)) as [k'|] eqn:A2; try discriminate.
  destruct (d_iv (cs_w x)) as [v|] eqn:A3, (d_iv (cs_r y)) as [v'|] eqn:A4; try discriminate.
  destruct (d_seq (cs_w x)) as [[q l]|] eqn:A5, (d_seq (cs_r y)) as [[q' l']|] eqn:A6; try discriminate.
  apply beqb_eq in K2. apply N.eqb_eq in K1, K3. cbn in K4. apply andb_true_iff in K4. destruct K4 as [K4 K5].
  apply N.eqb_eq in K4, K5. subst.
  exists x, y, k'. repeat split; congruence.
Qed.

(* one message, delivered in two pieces, and read *)
Lemma round C a b d : aead_correct C -> linked (mkWorld a b [] [] [] [] [] []) -> short a d ->
  fst (step C (OSend d) a) = Ok [] -> 7 <? blen (c_out (after C (OSend d) a)) = true ->
  exists w', traffic C (mkWorld a b [] [] [] [] [] []) w' /\ w_got_b w' = d /\ w_ab w' = [].
Proof.
  intros AC Li Sh St L. apply N.ltb_lt in L. set (i := c_out (after C (OSend d) a)) in *.
  set (p := btake 7 i). set (q := bdrop 7 i).
  assert (I : [] ++ i = p ++ q) by (symmetry; apply btake_bdrop).
  assert (P : p <> []). { intro E. apply (f_equal blen) in E. unfold p in E. rewrite blen_btake in E. cbn in E. lia. }
  assert (Q : q <> []). { intro E. apply (f_equal blen) in E. unfold q in E. rewrite blen_bdrop in E. cbn in E. lia. }
  clearbody p q.
  set (w0 := mkWorld a b [] [] [] [] [] []).
  set (w1 := mkWorld (after C (OSend d) a) b [] [] ([] ++ d) [] [] []).
  set (w2 := mkWorld (after C OFlush (w_a w1)) b ([] ++ i) [] ([] ++ d) [] [] []).
  set (w3 := mkWorld (w_a w2) (after C (ORecv p) (w_b w2)) q [] ([] ++ d) [] [] []).
  set (w4 := mkWorld (w_a w2) (after C (ORecv q) (w_b w3)) [] [] ([] ++ d) [] [] []).
  set (w5 := mkWorld (w_a w2) (after C ORead (w_b w4)) [] [] ([] ++ d) [] [] ([] ++ returned C ORead (w_b w4))).
  assert (T : traffic C w0 w5).
  { apply (tf_more C _ w4); [apply (tf_more C _ w3); [apply (tf_more C _ w2); [apply (tf_more C _ w1); [apply (tf_more C _ w0); [apply tf_none|]|]|]|]|].
    - exact (mv_send C w0 d Sh St).
    - exact (mv_flush C w1).
    - exact (mv_deliver C w2 p q I P).
    - exact (mv_deliver C w3 q [] (eq_sym (app_nil_r q)) Q).
    - exact (mv_read C w4). }
  exists w5. split; [exact T|]. split; [|reflexivity].
  destruct (delivered_all C AC w0 w5 Li T eq_refl eq_refl) as [E _].
  unfold w5 at 2 in E. cbn [w_b] in E. rewrite (proj1 (after_read C (w_b w4))) in E.
  cbn [c_app cset_app] in E. rewrite app_nil_r in E. exact E.
Qed.
