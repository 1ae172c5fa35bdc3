(* What a peer can make a connection hold. *)
From Verif Require Import Base Serial Iana Crypto Config Cipher Conn S_Hist S_Conn S_Heed S_Memory P_Base P_Monad P_Frame P_Hist P_Rec P_Buf P_Split P_Entire3 Toy.

Lemma rec_none_lt C c c1 : read_next_record C c = (Ok None, c1) -> blen (c_in c1) < max_frag c1 + 261.
Proof.
  intro H. pose proof (rec_frag _ _ _ _ H) as Fr. rewrite Fr. clear Fr. revert H. rewrite read_record_eq. cbv zeta.
  destruct (_ <? 5) eqn:E1; [intro H; injection H; intros <-; cbn [c_in cset_in]; apply N.ltb_lt in E1; lia|].
  destruct (rec_max c <? _) eqn:E2; [discriminate|]. apply N.ltb_ge in E2. unfold rec_max in E2.
  destruct (_ <? rec_len _) eqn:E3.
  - intro H; injection H; intros <-. cbn [c_in cset_in]. apply N.ltb_lt in E3. destruct (dec_on c); lia.
  - destruct (unprotect _ _ _) as [[[ct f]|e] c2]; [|discriminate]. destruct (ct =? CT_CCS); discriminate.
Qed.
Lemma hs_len_lt b : hs_len b <= 16777215.
Proof.
  unfold hs_len. pose proof (of_bytes_lt (btake 3 (bdrop 1 b))) as L.
  assert (K : blen (btake 3 (bdrop 1 b)) <= 3) by (rewrite blen_btake; lia).
  assert (256 ^ blen (btake 3 (bdrop 1 b)) <= 256 ^ 3) by (apply N.pow_le_mono_r; lia).
  change (256 ^ 3) with 16777216 in *. lia.
Qed.
Lemma fill_false2 C : forall n c c1, fill_handshake n C c = (Ok false, c1) -> blen (c_in c1) < max_frag c1 + 261 /\ wanting c1 = true.
Proof.
  induction n as [|n IH]; intros c c1 H; destruct (wanting c) eqn:W.
  - cbn [fill_handshake] in H. rewrite bind_get in H. unfold wanting in W. rewrite W in H. discriminate H.
  - rewrite (fill_done _ C c W) in H. discriminate H.
  - rewrite (fill_more n C c W) in H. destruct (read_next_record C c) as [[[[ct f]|]|e] c2] eqn:R; [| |discriminate H].
    + destruct (negb _); [discriminate H|]. apply (IH _ _ H).
    + injection H; intros <-. split; [apply (rec_none_lt _ _ _ R)|]. unfold wanting in *. rewrite (rec_inhs _ _ _ _ R). exact W.
  - rewrite (fill_done _ C c W) in H. discriminate H.
Qed.
Lemma wanting_lt c : wanting c = true -> blen (c_inhs c) < MESSAGE_MAX.
Proof. unfold wanting, MESSAGE_MAX. intro W. apply N.ltb_lt in W. pose proof (hs_len_lt (c_inhs c)). lia. Qed.

Lemma content_none_lt C c c1 : read_next_content C c = (Ok None, c1) ->
  (blen (c_in c1) < max_frag c1 + 261 \/ blen (c_inhs c1) < 4) /\ (c_inhs c1 = c_inhs c \/ blen (c_inhs c1) < MESSAGE_MAX).
Proof.
  rewrite content_eq. destruct (read_next_record C c) as [[[[ct f]|]|e] c2] eqn:R; cbn [after_record]; [| |discriminate].
  2:{ intro H; injection H; intros <-. split; [left; apply (rec_none_lt _ _ _ R) | left; apply (rec_inhs _ _ _ _ R)]. }
  destruct (_ && _); [discriminate|]. destruct (negb _); [discriminate|]. cbv zeta. destruct (_ <? 4) eqn:E4.
  - intro H; injection H; intros <-. apply N.ltb_lt in E4. split; [right; exact E4 | right; unfold MESSAGE_MAX; lia].
  - destruct (fill_handshake _ _ _) as [[[|]|e] c3] eqn:F; cbn [after_fill]; [destruct (hs_len _ <? _); discriminate | | discriminate].
    intro H; injection H; intros <-. destruct (fill_false2 _ _ _ _ F) as (A & B). split; [left; exact A | right; apply wanting_lt; exact B].
Qed.
Lemma content_some_inhs C c ct d c1 : read_next_content C c = (Ok (Some (ct, d)), c1) -> c_inhs c1 = [].
Proof.
  rewrite content_eq. destruct (read_next_record C c) as [[[[ct0 f]|]|e] c2] eqn:R; cbn [after_record]; [|discriminate|discriminate].
  destruct (is_nil (c_inhs c2)) eqn:Z; cbn [andb].
  - destruct (negb (ct0 =? CT_HANDSHAKE)); [intro H; injection H; intros <- _ _; destruct (c_inhs c2); [reflexivity | discriminate Z]|].
    cbv zeta. destruct (_ <? 4); [discriminate|]. destruct (fill_handshake _ _ _) as [[[|]|e] c3]; cbn [after_fill]; try discriminate.
    destruct (hs_len _ <? _); [discriminate|]. intro H; injection H; intros <- _ _. reflexivity.
  - destruct (negb (ct0 =? CT_HANDSHAKE)); [discriminate|].
    cbv zeta. destruct (_ <? 4); [discriminate|]. destruct (fill_handshake _ _ _) as [[[|]|e] c3]; cbn [after_fill]; try discriminate.
    destruct (hs_len _ <? _); [discriminate|]. intro H; injection H; intros <- _ _. reflexivity.
Qed.

Definition lowhs (c : conn) : Prop := blen (c_inhs c) < MESSAGE_MAX.
Lemma loops_low C c x : loops C c x -> lowhs c -> forall c1, x = (Ok tt, c1) ->
  lowhs c1 /\ (blen (c_in c1) < max_frag c1 + 261 \/ blen (c_inhs c1) < 4).
Proof.
  induction 1 as [c c1 H|c e c1 H|c c1 x H L IH]; intros Lo c' E; [injection E; intros <-; clear E | discriminate E |].
  - revert H. unfold guarded, receive_one. unfold bind at 1.
    destruct (read_next_content C c) as [[[[ct d]|]|e] c0] eqn:R.
    + unfold bind. destruct (handle_content C ct d c0) as [[|] ?]; [discriminate|]. destruct (fail _ _ _) as [[|] ?]; discriminate.
    + cbn. intro H; injection H; intros <-. destruct (content_none_lt _ _ _ R) as (A & B). split; [|exact A].
      unfold lowhs in *. destruct B as [->|B]; [exact Lo | exact B].
    + destruct (fail _ _ _) as [[|] ?]; discriminate.
  - apply IH; [|exact E]. revert H. unfold guarded, receive_one. unfold bind at 1.
    destruct (read_next_content C c) as [[[[ct d]|]|e] c0] eqn:R; [|discriminate|destruct (fail _ _ _) as [[|] ?]; discriminate].
    unfold bind. assert (K : keep_in c0 (snd (handle_content C ct d c0))).
    { apply (stable_handle C _ (keep_in_stable C)). intros; split; reflexivity. }
    destruct (handle_content C ct d c0) as [[|] c2]; [|destruct (fail _ _ _) as [[|] ?]; discriminate].
    cbn. intro H; injection H; intros <-. destruct K as [_ K]. cbn [snd] in K. unfold lowhs. rewrite K, (content_some_inhs _ _ _ _ _ R).
    unfold MESSAGE_MAX. cbn. lia.
Qed.
Lemma recv_low C d c c1 : lowhs c -> receive_data C d c = (Ok tt, c1) ->
  lowhs c1 /\ (blen (c_in c1) < max_frag c1 + 261 \/ blen (c_inhs c1) < 4).
Proof.
  intros L H. destruct d as [|x d]; [discriminate H|].
  destruct (can_receive (c_state c)) eqn:R.
  2:{ destruct (receive_data_refused C (x :: d) c) as (e & E); [right; exact R|]. rewrite H in E. discriminate E. }
  destruct (receive_data_loops C (x :: d) c) as ([r c2] & A & B & D); [discriminate | exact R|].
  rewrite H in B, D. cbn [fst snd] in B, D. subst c2. destruct r as [[]|e]; [|specialize (D e eq_refl); discriminate D].
  apply (loops_low _ _ _ A); [exact L | reflexivity].
Qed.
Lemma others_in C o c : (forall d, o <> ORecv d) -> keep_in c (after C o c).
Proof.
  intros Ho. pose proof (keep_in_stable C) as S. pose proof (st_pre C _ S) as P.
  assert (R : forall m : M unit, rel keep_in m -> keep_in c (snd ((m ;; ret ([]:bytes)) c))).
  { intros m H. apply (rel_bind _ P _ _ m (fun _ => ret [])); [exact H | intro; apply (rel_ret _ P)]. }
  unfold after, step. destruct o; try (elim (Ho _ eq_refl)); try apply R.
  - apply (stable_initiate_connection C _ S).
  - apply (stable_send_data C _ S).
  - split; reflexivity.
  - split; reflexivity.
  - apply (stable_rekey C _ S).
  - apply (stable_close_receiving_end C _ S).
  - apply (stable_close_sending_end C _ S).
Qed.
Lemma calm_low C : forall ops c, lowhs c -> calm C ops c -> lowhs (run C ops c).
Proof.
  induction ops as [|o ops IH]; intros c L H; [exact L|]. cbn [calm run] in *. destruct H as [H1 H2]. apply IH; [|exact H2].
  assert (K : (forall d, o <> ORecv d) \/ exists d, o = ORecv d) by (destruct o; try (left; intros; discriminate); right; eexists; reflexivity).
  destruct K as [K|(d & ->)].
  - unfold lowhs. destruct (others_in C o c K) as [_ ->]. exact L.
  - destruct (receive_data C d c) as [r c1] eqn:E. cbn [fst] in H1. subst r.
    unfold after, step. unfold bind. rewrite E. cbn [snd ret]. apply (recv_low C d c c1 L E).
Qed.
Lemma created_low g c : created g c -> lowhs c.
Proof.
  intro K. apply created_cases in K.
  destruct K as [(_ & host & ocsp & unique & rng & t & -> & _) | (_ & ocsp & unique & rng & t & -> & _)]; unfold lowhs, MESSAGE_MAX; cbn; lia.
Qed.

Lemma max_frag_le C g c ops : created g c -> max_frag (run C ops c) <= 16384.
Proof.
  intro H. apply valid_mfl_range, mfl_good_max. apply mfl_good_run. apply (created_mfl g). exact H.
Qed.
Lemma kept C g c ops d c1 : created g c -> calm C ops c -> receive_data C d (run C ops c) = (Ok tt, c1) ->
  blen (c_inhs c1) < MESSAGE_MAX /\ (blen (c_in c1) < RECORD_MAX \/ blen (c_inhs c1) < 4).
Proof.
  intros Cr Ca H. destruct (recv_low C d _ c1 (calm_low C ops c (created_low g c Cr) Ca) H) as (A & B). split; [exact A|].
  pose proof (max_frag_le C g c (ops ++ [ORecv d]) Cr) as M.
  replace (run C (ops ++ [ORecv d]) c) with c1 in M.
  - unfold RECORD_MAX. destruct B as [B|B]; [left; lia | right; exact B].
  - rewrite (run_app C ops [ORecv d] c). cbn [run]. unfold after, step, bind. rewrite H. reflexivity.
Qed.

(* --- what waits for the caller ------------------------------------------- *)
Lemma strip_zeros_le b : blen (strip_zeros b) <= blen b.
Proof. induction b as [|x b IH]; [apply N.le_refl|]. rewrite blen_cons. destruct x; cbn [strip_zeros]; rewrite ?blen_cons; lia. Qed.
Lemma unprotect_le C i c ct f c1 : opens_short C -> unprotect C i c = (Ok (ct, f), c1) -> blen f <= rec_len i.
Proof.
  intros S. unfold unprotect. rewrite bind_get. cbv zeta. destruct (dec_on c).
  - unfold bind at 1. unfold on_cipher. rewrite bind_get. destruct (c_cipher c) as [x|]; [|discriminate]. unfold decrypt.
    destruct (d_key (cs_r x)) as [k|]; [|discriminate]. destruct (next_nonce (cs_r x)) as [[nonce|e] r]; [|discriminate].
    destruct (cr_open C _ _ _ _ _) as [p|] eqn:O; [|discriminate]. unfold lift, inner_plaintext. rewrite bind_modify.
    apply S in O. destruct (strip_zeros (rev_append p [])) as [|t rb] eqn:Z; [discriminate|].
    intro H; injection H; intros _ <- _. pose proof (strip_zeros_le (rev_append p [])) as L. rewrite Z in L.
    rewrite !rev_append_rev, !app_nil_r in *. rewrite blen_cons in L. unfold blen in *. rewrite !rev_length in *.
    assert (N.of_nat (length (btake (rec_len i) (bdrop 5 i))) <= rec_len i) by (pose proof (blen_btake (rec_len i) (bdrop 5 i)) as B; unfold blen in B; lia). lia.
  - intro H; injection H; intros _ <- _. rewrite blen_btake. lia.
Qed.
Lemma record_le C c ct f c1 : opens_short C -> read_next_record C c = (Ok (Some (ct, f)), c1) -> blen f + blen (c_in c1) <= blen (c_in c).
Proof.
  intros S. rewrite read_record_eq. cbv zeta. set (i := skip_ccs (c_in c)).
  destruct (blen i <? 5) eqn:E1; [discriminate|]. destruct (rec_max c <? _); [discriminate|].
  destruct (blen i - 5 <? rec_len i) eqn:E3; [discriminate|]. apply N.ltb_ge in E1, E3.
  destruct (unprotect C i _) as [[[ct0 f0]|e] c2] eqn:U; [|discriminate].
  destruct (ct0 =? CT_CCS); [discriminate|]. intro H; injection H; intros <- <- _.
  pose proof (unprotect_le _ _ _ _ _ _ S U) as L. pose proof (unprotect_in C i (cset_in (bdrop (rec_len i + 5) i) c)) as [U1 _].
  rewrite U in U1. cbn [snd c_in cset_in] in U1. rewrite U1, blen_bdrop.
  assert (blen i <= blen (c_in c)) by (pose proof (skip_ccs_len _ (c_in c) (le_n _)) as K; unfold i, blen; lia). lia.
Qed.
Lemma content_le C c d c1 : opens_short C -> read_next_content C c = (Ok (Some (CT_APPDATA, d)), c1) -> blen d + blen (c_in c1) <= blen (c_in c).
Proof.
  intros S. rewrite content_eq. destruct (read_next_record C c) as [[[[ct0 f]|]|e] c2] eqn:R; cbn [after_record]; [|discriminate|discriminate].
  destruct (_ && _); [intro H; injection H; intros <- <- ->; exact (record_le _ _ _ _ _ S R)|].
  destruct (negb _); [discriminate|]. cbv zeta. destruct (_ <? 4); [discriminate|].
  destruct (fill_handshake _ _ _) as [[[|]|e] c3]; cbn [after_fill]; try discriminate.
  destruct (hs_len _ <? _); discriminate.
Qed.
Lemma handles_le C : opens_short C -> forall c l, handles C c l -> blen (concat (map delivered l)) <= blen (c_in c).
Proof.
  intros S c l H. induction H as [c c1 R|c e c1 R|c ct d c1 e c2 R Hd|c ct d c1 c2 l R Hd Hl IH]; cbn [map concat]; try (cbn; lia).
  - rewrite app_nil_r. cbn [delivered]. destruct (established _ && (ct =? CT_APPDATA)) eqn:E; [|cbn; lia].
    apply andb_prop in E. destruct E as [_ E]. apply N.eqb_eq in E. subst ct. pose proof (content_le _ _ _ _ S R). lia.
  - rewrite blen_app. pose proof (handle_in C ct d c1) as K. rewrite Hd in K. cbn [snd] in K. rewrite K in IH.
    cbn [delivered]. destruct (established _ && (ct =? CT_APPDATA)) eqn:E.
    + apply andb_prop in E. destruct E as [_ E]. apply N.eqb_eq in E. subst ct. pose proof (content_le _ _ _ _ S R). lia.
    + apply read_content_lt in R. cbn. lia.
Qed.
Lemma app_kept C d c : opens_short C -> blen (c_app (snd (receive_data C d c))) <= blen (c_app c) + blen (c_in c) + blen d.
Proof.
  intros S. assert (R : (d = [] \/ can_receive (c_state c) = false) \/ (d <> [] /\ can_receive (c_state c) = true)).
  { destruct d; [left; left; reflexivity|]. destruct (can_receive (c_state c)); [right; split; [discriminate | reflexivity] | left; right; reflexivity]. }
  destruct R as [R|[R1 R2]].
  - destruct (receive_data_refused C d c R) as (e & ->). cbn [snd]. lia.
  - destruct (receive_data_app C d c R1 R2) as (l & H & ->). apply (handles_le C S) in H. cbn [c_in cset_in] in H. rewrite blen_app in *. lia.
Qed.

(* --- empty handshake records ----------------------------------------------- *)
Definition hollow : bytes := [x16; x03; x03; x00; x00].
Fixpoint hollows (n : nat) : bytes := match n with O => [] | S n' => hollow ++ hollows n' end.
Lemma hollows_len n : blen (hollows n) = 5 * N.of_nat n.
Proof. induction n as [|n IH]; [reflexivity|]. cbn [hollows]. rewrite blen_app, IH. change (blen hollow) with 5. lia. Qed.
Lemma hollows_app n : forall m, hollows n ++ hollows m = hollows (n + m).
Proof. induction n as [|n IH]; intro m; [reflexivity|]. cbn [hollows plus]. rewrite <- app_assoc, IH. reflexivity. Qed.
Definition listening (c : conn) : Prop :=
  can_receive (c_state c) = true /\ c_cipher c = None /\ c_inhs c = [].
Lemma hollow_read C c i : listening c -> c_in c = hollow ++ i -> read_next_content C c = (Ok None, cset_in i c).
Proof.
  intros (_ & Ci & Hi) E. rewrite content_eq, read_record_eq. cbv zeta. rewrite E.
  change (skip_ccs (hollow ++ i)) with (hollow ++ i). change (rec_len (hollow ++ i)) with 0.
  assert (L : blen (hollow ++ i) = 5 + blen i) by (rewrite blen_app; reflexivity). rewrite L.
  assert (5 + blen i <? 5 = false) as -> by (apply N.ltb_ge; lia).
  assert (rec_max c <? 0 = false) as -> by (apply N.ltb_ge; lia).
  assert (5 + blen i - 5 <? 0 = false) as -> by (apply N.ltb_ge; lia).
  change (bdrop (0 + 5) (hollow ++ i)) with i. unfold unprotect. rewrite bind_get. cbv zeta.
  assert (dec_on (cset_in i c) = false) as -> by (unfold dec_on; cbn [c_cipher cset_in]; rewrite Ci; reflexivity).
  change (rec_len (hollow ++ i)) with 0. cbn [ret]. change (of_bytes (btake 1 (hollow ++ i))) with CT_HANDSHAKE.
  change (CT_HANDSHAKE =? CT_CCS) with false. cbv iota. cbn [after_record].
  change (CT_HANDSHAKE =? CT_HANDSHAKE) with true. cbn [negb]. rewrite andb_false_r. cbv zeta iota.
  change (btake 0 (bdrop 5 (hollow ++ i))) with (@nil byte). cbn [c_inhs cset_in cset_inhs]. rewrite Hi. cbn [app].
  change (blen [] <? 4) with true. cbv iota. f_equal. destruct c. cbn in Hi. subst. reflexivity.
Qed.
Lemma hollow_recv C c n : listening c -> c_in c = hollows n -> receive_data C (hollows 2) c = (Ok tt, cset_in (hollows (S n)) c).
Proof.
  intros L E. pose proof L as (R & Ci & Hi). unfold receive_data. change (is_nil (hollows 2)) with false. cbv iota. rewrite bind_get, R. cbn [negb].
  rewrite bind_modify. rewrite E, hollows_app. replace (n + 2)%nat with (S (S n)) by lia.
  assert (Z : guarded C (receive_one C) (cset_in (hollows (S (S n))) c) = (Ok false, cset_in (hollows (S n)) c)).
  { unfold guarded, receive_one, bind. rewrite (hollow_read C _ (hollows (S n))); [reflexivity | exact L | reflexivity]. }
  assert (Y : forall k, receive_loop k C (cset_in (hollows (S (S n))) c) = (Ok tt, cset_in (hollows (S n)) c)).
  { intro k. destruct k; cbn [receive_loop]; unfold bind; rewrite Z; reflexivity. }
  unfold bind at 1. rewrite Y. rewrite bind_get. cbn [c_cipher cset_in]. rewrite Ci. reflexivity.
Qed.
Lemma hollow_run C : forall k n c, listening c -> c_in c = hollows n ->
  smooth C (repeat (ORecv (hollows 2)) k) c /\ c_in (run C (repeat (ORecv (hollows 2)) k) c) = hollows (k + n).
Proof.
  induction k as [|k IH]; intros n c L E; [split; [exact Logic.I | exact E]|]. cbn [repeat smooth run].
  assert (A : step C (ORecv (hollows 2)) c = (Ok [], cset_in (hollows (S n)) c)).
  { unfold step, bind. rewrite (hollow_recv C c n L E). reflexivity. }
  assert (B : after C (ORecv (hollows 2)) c = cset_in (hollows (S n)) c) by (unfold after; rewrite A; reflexivity).
  rewrite B. destruct (IH (S n) (cset_in (hollows (S n)) c)) as (P & Q); [exact L | reflexivity|].
  split; [split; [exists []; rewrite A; reflexivity | exact P]|]. rewrite Q. f_equal. lia.
Qed.
Lemma unbounded C g c : created g c -> g_side g = Server -> forall n, exists ops, smooth C ops c /\ n <= blen (c_in (run C ops c)).
Proof.
  intros K Sd n. apply created_cases in K.
  destruct K as [(Z & _) | (_ & ocsp & unique & rng & t & -> & _)]; [rewrite Z in Sd; discriminate Sd|].
  exists (repeat (ORecv (hollows 2)) (N.to_nat n)).
  match goal with |- smooth C _ ?c /\ _ => destruct (hollow_run C (N.to_nat n) 0 c) as (P & Q) end.
  - split; [reflexivity|]. split; reflexivity.
  - reflexivity.
  - split; [exact P|]. rewrite Q, hollows_len. lia.
Qed.

(* --- examples ---------------------------------------------------------------- *)
Lemma toy_short : opens_short toy.
Proof.
  intros suite key nonce data aad p H. cbn [cr_open toy] in H. unfold toy_open in H. cbv zeta in H.
  destruct (_ <? _); [discriminate H|]. destruct (beqb _ _); [|discriminate H]. injection H; intros <-. rewrite blen_btake. lia.
Qed.
(* six bytes of a handshake message of 255 bytes, and two of the next record *)
Definition mem_part : bytes := [x16; x03; x03; x00; x06; x01; x00; x00; xff; x03; x03; x16; x03].
