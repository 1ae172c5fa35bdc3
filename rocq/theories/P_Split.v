(* Feeding the input in pieces (C02). *)
From Verif Require Import Base P_Base Iana Crypto Config Serial Ext Msg Hkdf Cipher Kex Sig Ocsp Transcript Conn S_Hist S_Conn S_Send S_Split P_Monad P_Frame P_Rec P_Send P_Hist P_Blind.

Notation ext := with_more.
Lemma ext_nil c : ext [] c = c. Proof. unfold with_more. rewrite app_nil_r. destruct c; reflexivity. Qed.
Lemma ext_app a b c : ext b (ext a c) = ext (a ++ b) c.
Proof. unfold with_more. cbn [c_in cset_in]. rewrite app_assoc. destruct c; reflexivity. Qed.

(* --- change_cipher_spec records ---------------------------------------- *)
Lemma skip_cases : forall n b, (length b <= n)%nat ->
  skip_ccs b = b \/ exists b1 b2 r, b = x14 :: b1 :: b2 :: x00 :: x01 :: x01 :: r /\ skip_ccs b = skip_ccs r.
Proof.
  intros n b _.
  destruct b as [|b0 b]; [left; reflexivity|]. destruct b0; try (left; reflexivity).
  destruct b as [|b1 b]; [left; reflexivity|]. destruct b as [|b2 b]; [left; reflexivity|].
  destruct b as [|b3 b]; [left; reflexivity|]. destruct b3; try (left; reflexivity).
  destruct b as [|b4 b]; [left; reflexivity|]. destruct b4; try (left; reflexivity).
  destruct b as [|b5 b]; [left; reflexivity|]. destruct b5; try (left; reflexivity).
  right. exists b1, b2, b. split; reflexivity.
Qed.
Lemma skip_app : forall n a b, (length a <= n)%nat -> skip_ccs (a ++ b) = skip_ccs (skip_ccs a ++ b).
Proof.
  induction n as [|n IH]; intros a b Hn.
  - destruct a; [reflexivity | cbn in Hn; lia].
  - destruct (skip_cases (length a) a (le_n _)) as [-> | (b1 & b2 & r & -> & E)]; [reflexivity|].
    cbn [app skip_ccs]. cbn [length] in Hn. apply IH. lia.
Qed.
Lemma skip_done j b : skip_ccs j = j -> 5 <= blen j -> record_length j <> 1 \/ 6 <= blen j -> skip_ccs (j ++ b) = j ++ b.
Proof.
  intros S L H.
  destruct (skip_cases (length (j ++ b)) (j ++ b) (le_n _)) as [E | (b1 & b2 & r & E & _)]; [exact E|]. exfalso.
  unfold blen in L, H.
  destruct j as [|j0 [|j1 [|j2 [|j3 [|j4 j]]]]]; cbn [length] in L; try lia.
  cbn [app] in E. injection E; intros E5 -> -> _ _ ->.
  destruct j as [|j5 j].
  - destruct H as [H|H]; [apply H; reflexivity | cbn in H; lia].
  - cbn [app] in E5. injection E5; intros _ ->.
    pose proof (skip_ccs_len _ j (le_n _)) as Q. cbn [skip_ccs] in S. apply (f_equal (@length _)) in S. cbn [length] in S. lia.
Qed.

(* --- one record -------------------------------------------------------- *)
Lemma bl_unprotect C i : blind (unprotect C i).
Proof.
  intros c v. unfold unprotect. cbv zeta. rewrite !bind_get. change (dec_on (cset_in v c)) with (dec_on c).
  destruct (dec_on c); [|reflexivity]. apply (bl_bind _ _ (on_cipher _) _); [apply bl_on | intro; apply bl_lift].
Qed.
Lemma btake_app_le n (a b : bytes) : n <= blen a -> btake n (a ++ b) = btake n a.
Proof. intro H. unfold btake, blen in *. rewrite firstn_app. replace (N.to_nat n - length a)%nat with 0%nat by lia. cbn [firstn]. apply app_nil_r. Qed.
Lemma bdrop_app_le n (a b : bytes) : n <= blen a -> bdrop n (a ++ b) = bdrop n a ++ b.
Proof. intro H. unfold bdrop, blen in *. rewrite skipn_app. replace (N.to_nat n - length a)%nat with 0%nat by lia. reflexivity. Qed.
Lemma rec_len_app j b : 5 <= blen j -> rec_len (j ++ b) = rec_len j.
Proof.
  intro L. unfold record_length. rewrite bdrop_app_le by lia. rewrite btake_app_le; [reflexivity|]. rewrite blen_bdrop. lia.
Qed.
Lemma unprotect_app C j b : 5 <= blen j -> rec_len j <= blen j - 5 -> forall c, unprotect C (j ++ b) c = unprotect C j c.
Proof.
  intros L1 L2 c. unfold unprotect. cbv zeta. rewrite (rec_len_app j b L1), (btake_app_le 5 j b L1), (btake_app_le 1 j b) by lia.
  rewrite (bdrop_app_le 5 j b L1), btake_app_le by (rewrite blen_bdrop; lia). reflexivity.
Qed.
Lemma rec_some C c b r c1 : 1 <= max_frag c -> read_next_record C c = (r, c1) -> r <> Ok None ->
  read_next_record C (ext b c) = (r, ext b c1).
Proof.
  intros P H N0. rewrite read_record_eq in H |- *. cbv zeta in *.
  set (i := skip_ccs (c_in c)) in *.
  change (c_in (ext b c)) with (c_in c ++ b).
  change (rec_max (ext b c)) with (rec_max c).
  destruct (blen i <? 5) eqn:E1; [congruence|]. apply N.ltb_ge in E1.
  assert (S : rec_len i <> 1 \/ 6 <= blen i -> skip_ccs (c_in c ++ b) = i ++ b).
  { intro Z. rewrite (skip_app (length (c_in c))) by lia. fold i. apply skip_done; [apply skip_ccs_idem | exact E1 | exact Z]. }
  destruct (rec_max c <? rec_len i) eqn:E2.
  { apply N.ltb_lt in E2. rewrite S by (left; unfold rec_max in E2; destruct (dec_on c); lia).
    assert (blen (i ++ b) <? 5 = false) as -> by (apply N.ltb_ge; rewrite blen_app; lia).
    rewrite (rec_len_app i b E1). rewrite (proj2 (N.ltb_lt _ _) E2).
    injection H; intros <- <-. unfold with_more. reflexivity. }
  destruct (blen i - 5 <? rec_len i) eqn:E3; [congruence|]. apply N.ltb_ge in E3.
  rewrite S by lia.
  assert (blen (i ++ b) <? 5 = false) as -> by (apply N.ltb_ge; rewrite blen_app; lia).
  rewrite (rec_len_app i b E1), E2.
  assert (blen (i ++ b) - 5 <? rec_len i = false) as -> by (apply N.ltb_ge; rewrite blen_app; lia).
  rewrite bdrop_app_le by lia.
  change (cset_in (bdrop (rec_len i + 5) i ++ b) (ext b c)) with (cset_in (bdrop (rec_len i + 5) i ++ b) (cset_in (bdrop (rec_len i + 5) i) c)).
  rewrite (unprotect_app C i b E1 E3), bl_unprotect.
  pose proof (unprotect_in C i (cset_in (bdrop (rec_len i + 5) i) c)) as [U1 _].
  destruct (unprotect C i (cset_in (bdrop (rec_len i + 5) i) c)) as [[[ct f]|e] c2]; cbn [fst snd] in *.
  - destruct (ct =? CT_CCS); injection H; intros <- <-; unfold with_more; rewrite U1; reflexivity.
  - injection H; intros <- <-; unfold with_more; rewrite U1; reflexivity.
Qed.
Lemma rec_none C c b c1 : read_next_record C c = (Ok None, c1) ->
  read_next_record C (ext b c) = read_next_record C (ext b c1).
Proof.
  intro H. apply read_record_inv in H. destruct H as [(_ & H & _) | [(H & _) | (_ & _ & H & _)]]; [|congruence|congruence].
  subst c1. rewrite !read_record_eq. cbv zeta.
  change (c_in (ext b c)) with (c_in c ++ b). change (c_in (ext b (cset_in (skip_ccs (c_in c)) c))) with (skip_ccs (c_in c) ++ b).
  rewrite <- (skip_app (length (c_in c)) (c_in c) b) by lia. reflexivity.
Qed.
Lemma reading_frag c c' : reading c c' -> max_frag c' = max_frag c.
Proof. intros [E _]. rewrite E. reflexivity. Qed.
Lemma reading_state c c' : reading c c' -> c_state c' = c_state c.
Proof. intros [E _]. rewrite E. reflexivity. Qed.
Lemma rec_frag C c r c1 : read_next_record C c = (r, c1) -> max_frag c1 = max_frag c.
Proof. intro H. apply reading_frag. pose proof (reading_record C c) as R. rewrite H in R. exact R. Qed.
Lemma rec_inhs C c r c1 : read_next_record C c = (r, c1) -> c_inhs c1 = c_inhs c.
Proof. intro H. apply read_record_inv in H. destruct H as [(_ & -> & _) | [(_ & -> & _) | (_ & H & _)]]; [reflexivity | reflexivity | exact H]. Qed.

(* --- one handshake message --------------------------------------------- *)
Definition wanting (c : conn) : bool := blen (c_inhs c) - 4 <? hs_len (c_inhs c).
Lemma fill_done n C c : wanting c = false -> fill_handshake n C c = (Ok true, c).
Proof. unfold wanting. intro W. destruct n; cbn [fill_handshake]; rewrite bind_get, W; reflexivity. Qed.
Lemma fill_more n C c : wanting c = true -> fill_handshake (S n) C c =
  match read_next_record C c with
  | (Ok None, c1) => (Ok false, c1)
  | (Ok (Some (ct, f)), c1) =>
    if negb (ct =? CT_HANDSHAKE) then (Err (XAlert UNEXPECTED_MESSAGE), c1)
    else fill_handshake n C (cset_inhs (c_inhs c1 ++ f) c1)
  | (Err e, c1) => (Err e, c1)
  end.
Proof.
  unfold wanting. intro W. cbn [fill_handshake]. rewrite bind_get, W. unfold bind at 1.
  destruct (read_next_record C c) as [[[[ct f]|]|e] c1]; try reflexivity.
  destruct (negb _); [reflexivity|]. rewrite bind_modify. reflexivity.
Qed.
Lemma fill_ext C b : forall n m c r c1, 1 <= max_frag c -> (length (c_in c) < n)%nat -> (length (c_in c ++ b) < m)%nat ->
  fill_handshake n C c = (r, c1) ->
  (r <> Ok false -> fill_handshake m C (ext b c) = (r, ext b c1)) /\
  (r = Ok false -> wanting c1 = true /\ (4 <= blen (c_inhs c) -> 4 <= blen (c_inhs c1)) /\ (length (c_in c1) <= length (c_in c))%nat /\
     forall k, (length (c_in c1 ++ b) < k)%nat -> fill_handshake m C (ext b c) = fill_handshake k C (ext b c1)).
Proof.
  induction n as [|n IH]; intros m c r c1 P Hn Hm H; [lia|]. destruct m as [|m]; [lia|].
  destruct (wanting c) eqn:W.
  2:{ rewrite (fill_done (S n) C c W) in H. injection H; intros <- <-. split; [|discriminate]. intros _. apply fill_done. exact W. }
  rewrite (fill_more n C c W) in H. rewrite (fill_more m C (ext b c) W).
  destruct (read_next_record C c) as [r0 c2] eqn:R.
  pose proof (rec_frag _ _ _ _ R) as Fr. pose proof (rec_inhs _ _ _ _ R) as Ih. pose proof (read_record_le _ _ _ _ R) as Le.
  destruct r0 as [[[ct f]|]|e].
  - rewrite (rec_some C c b _ c2 P R) by discriminate.
    destruct (negb (ct =? CT_HANDSHAKE)).
    { injection H; intros <- <-. split; [reflexivity | discriminate]. }
    pose proof R as R'. apply read_record_inv in R'.
    destruct R' as [(Q & _) | [(Q & _) | (Q & _)]]; try discriminate. unfold blen in Q, Le.
    set (c3 := cset_inhs (c_inhs c2 ++ f) c2) in *.
    change (cset_inhs (c_inhs (ext b c2) ++ f) (ext b c2)) with (ext b c3).
    rewrite app_length in Hm.
    destruct (IH m c3 r c1) as [A B].
    { change (max_frag c3) with (max_frag c2). lia. }
    { change (c_in c3) with (c_in c2). lia. }
    { change (c_in c3) with (c_in c2). rewrite app_length. lia. }
    { exact H. }
    split; [exact A|]. intro E. destruct (B E) as (B1 & B2 & B4 & B3). split; [exact B1|]. split; [|split; [|exact B3]].
    + intro L. apply B2. unfold c3. cbn [c_inhs cset_inhs]. rewrite Ih, blen_app. lia.
    + change (c_in c3) with (c_in c2) in B4. lia.
  - injection H; intros <- <-. split; [congruence|]. intros _. unfold wanting in *. rewrite Ih. split; [exact W|].
    split; [auto|]. unfold blen in Le. split; [lia|]. intros k Hk. rewrite (rec_none C c b c2 R).
    destruct k as [|k]; [lia|]. rewrite (fill_more k C (ext b c2)) by (unfold wanting; change (c_inhs (ext b c2)) with (c_inhs c2); rewrite Ih; exact W).
    destruct (read_next_record C (ext b c2)) as [[[[ct f]|]|e] c3] eqn:R3; try reflexivity.
    destruct (negb _); [reflexivity|].
    pose proof R3 as R'. apply read_record_inv in R'.
    destruct R' as [(Q & _) | [(Q & _) | (Q & _)]]; try discriminate. unfold blen in Q.
    change (c_in (ext b c2)) with (c_in c2 ++ b) in Q. rewrite app_length in *.
    apply fill_fuel; cbn [c_in cset_inhs]; lia.
  - injection H; intros <- <-. split; [|discriminate]. intros _. rewrite (rec_some C c b _ c2 P R) by discriminate. reflexivity.
Qed.

(* what read_next_content does once it has a record *)
Definition after_fill (x : res bool * conn) : res (option (N * bytes)) * conn :=
  match x with
  | (Ok true, c) => if hs_len (c_inhs c) <? blen (c_inhs c) - 4 then (Err XTooMuch, c)
                    else (Ok (Some (CT_HANDSHAKE, c_inhs c)), cset_inhs [] c)
  | (Ok false, c) => (Ok None, c)
  | (Err e, c) => (Err e, c)
  end.
Definition after_record (C : crypto) (x : res (option (N * bytes)) * conn) : res (option (N * bytes)) * conn :=
  match x with
  | (Ok None, c) => (Ok None, c)
  | (Err e, c) => (Err e, c)
  | (Ok (Some (ct, f)), c) =>
    if is_nil (c_inhs c) && negb (ct =? CT_HANDSHAKE) then (Ok (Some (ct, f)), c)
    else if negb (ct =? CT_HANDSHAKE) then (Err (XAlert UNEXPECTED_MESSAGE), c)
    else
      let c1 := cset_inhs (c_inhs c ++ f) c in
      if blen (c_inhs c1) <? 4 then (Ok None, c1) else after_fill (fill_handshake (S (length (c_in c1))) C c1)
  end.
Lemma content_eq C c : read_next_content C c = after_record C (read_next_record C c).
Proof.
  unfold read_next_content. unfold bind at 1. destruct (read_next_record C c) as [[[[ct f]|]|e] c1]; try reflexivity.
  rewrite bind_get. cbn [after_record]. destruct (_ && _); [reflexivity|]. destruct (negb _); [reflexivity|].
  rewrite bind_modify, bind_get. cbv zeta. destruct (_ <? 4); [reflexivity|]. unfold bind at 1.
  destruct (fill_handshake _ C _) as [[[|]|e] c2]; try reflexivity. cbn [negb after_fill]. rewrite bind_get.
  destruct (_ <? _); [reflexivity|]. rewrite bind_modify. reflexivity.
Qed.
Lemma content_ext C c b r c1 : 1 <= max_frag c -> read_next_content C c = (r, c1) ->
  (r <> Ok None -> read_next_content C (ext b c) = (r, ext b c1)) /\
  (r = Ok None -> read_next_content C (ext b c) = read_next_content C (ext b c1) \/
                  read_next_content C (ext b c) = (Ok None, ext b c1)).
Proof.
  intros P H. rewrite content_eq in H. rewrite (content_eq C (ext b c)).
  destruct (read_next_record C c) as [r0 c2] eqn:R.
  pose proof (rec_frag _ _ _ _ R) as Fr.
  destruct r0 as [[[ct f]|]|e].
  2:{ cbn in H. injection H; intros <- <-. split; [congruence|]. intros _. left. rewrite (rec_none C c b c2 R). symmetry. apply content_eq. }
  2:{ cbn in H. injection H; intros <- <-. split; [|discriminate]. intros _. rewrite (rec_some C c b _ c2 P R) by discriminate. reflexivity. }
  rewrite (rec_some C c b _ c2 P R) by discriminate.
  cbn [after_record] in H |- *. change (c_inhs (ext b c2)) with (c_inhs c2).
  destruct (_ && _). { injection H; intros <- <-. split; [reflexivity | discriminate]. }
  destruct (negb _). { injection H; intros <- <-. split; [reflexivity | discriminate]. }
  cbv zeta in H |- *. change (cset_inhs (c_inhs c2 ++ f) (ext b c2)) with (ext b (cset_inhs (c_inhs c2 ++ f) c2)).
  set (c3 := cset_inhs (c_inhs c2 ++ f) c2) in *. change (c_inhs (ext b c3)) with (c_inhs c3).
  destruct (blen (c_inhs c3) <? 4) eqn:E4. { injection H; intros <- <-. split; [congruence | right; reflexivity]. }
  apply N.ltb_ge in E4.
  destruct (fill_handshake (S (length (c_in c3))) C c3) as [r4 c4] eqn:F.
  destruct (fill_ext C b (S (length (c_in c3))) (S (length (c_in (ext b c3)))) c3 r4 c4) as [A B].
  { change (max_frag c3) with (max_frag c2). lia. } { lia. } { change (c_in (ext b c3)) with (c_in c3 ++ b). lia. } { exact F. }
  destruct r4 as [[|]|e].
  - rewrite A by discriminate. cbn [after_fill] in H |- *. change (c_inhs (ext b c4)) with (c_inhs c4).
    destruct (_ <? _); injection H; intros <- <-; (split; [reflexivity | discriminate]).
  - cbn [after_fill] in H. injection H; intros <- <-. split; [congruence|]. intros _. left.
    destruct (B eq_refl) as (B1 & B2 & B4 & B3).
    specialize (B3 (S (length (c_in c4 ++ b))) (le_n _)). rewrite B3.
    specialize (B2 E4).
    rewrite (fill_more (length (c_in c4 ++ b)) C (ext b c4) B1), (content_eq C (ext b c4)).
    destruct (read_next_record C (ext b c4)) as [r5 c5] eqn:R5.
    pose proof (rec_inhs _ _ _ _ R5) as I5. change (c_inhs (ext b c4)) with (c_inhs c4) in I5.
    destruct r5 as [[[ct5 f5]|]|e]; [|reflexivity|reflexivity]. cbn [after_record].
    rewrite I5.
    replace (is_nil (c_inhs c4)) with false by (destruct (c_inhs c4); [unfold blen in B2; cbn in B2; lia | reflexivity]).
    cbn [andb]. destruct (negb (ct5 =? CT_HANDSHAKE)); [reflexivity|]. cbv zeta.
    cbn [c_inhs cset_inhs]. rewrite blen_app.
    assert (blen (c_inhs c4) + blen f5 <? 4 = false) as -> by (apply N.ltb_ge; lia).
    f_equal. pose proof R5 as R'. apply read_record_inv in R'.
    destruct R' as [(Q & _) | [(Q & _) | (Q & _)]]; try discriminate. unfold blen in Q.
    change (c_in (ext b c4)) with (c_in c4 ++ b) in Q.
    apply fill_fuel; cbn [c_in cset_inhs]; lia.
  - rewrite A by discriminate. cbn [after_fill] in H |- *. injection H; intros <- <-. split; [reflexivity | discriminate].
Qed.

(* --- the loop ---------------------------------------------------------- *)
Lemma blind_ext A (m : M A) b c r c1 : blind m -> (forall c, c_in (snd (m c)) = c_in c) -> m c = (r, c1) -> m (ext b c) = (r, ext b c1).
Proof.
  intros H K E. unfold with_more. rewrite (H c). specialize (K c). rewrite E in *. cbn [fst snd] in *. rewrite K. reflexivity.
Qed.
Lemma one_ext C c b r c1 : 1 <= max_frag c -> guarded C (receive_one C) c = (r, c1) ->
  (r <> Ok false -> guarded C (receive_one C) (ext b c) = (r, ext b c1)) /\
  (r = Ok false -> guarded C (receive_one C) (ext b c) = guarded C (receive_one C) (ext b c1) \/
                   guarded C (receive_one C) (ext b c) = (Ok false, ext b c1)).
Proof.
  intros P H.
  assert (U : forall x, guarded C (receive_one C) x =
    match read_next_content C x with
    | (Ok None, x1) => (Ok false, x1)
    | (Ok (Some (ct, d)), x1) =>
      match handle_content C ct d x1 with
      | (Ok _, x2) => (Ok true, x2)
      | (Err e, x2) => guarded C (raise e) x2
      end
    | (Err e, x1) => guarded C (raise e) x1
    end).
  { intro x. unfold guarded, receive_one, bind, raise, ret.
    destruct (read_next_content C x) as [[[[ct d]|]|e] x1]; try reflexivity.
    destruct (handle_content C ct d x1) as [[?|e] x2]; reflexivity. }
  assert (G : forall e x r x1, guarded C (raise e) x = (r, x1) -> guarded C (raise e) (ext b x) = (r, ext b x1) /\ r <> Ok false).
  { intros e x r' x1. unfold guarded, raise.
    match goal with |- context [fail C ?a x] => destruct (fail C a x) as [r0 x0] eqn:F;
      rewrite (blind_ext _ (fail C a) b x r0 x0 (bl_fail C a) (fail_in C a) F) end.
    destruct r0 as [?|?]; intro E; injection E; intros <- <-; (split; [reflexivity | discriminate]). }
  rewrite !U in *. destruct (read_next_content C c) as [r0 c2] eqn:R.
  destruct (content_ext C c b r0 c2 P R) as [A B].
  destruct r0 as [[[ct d]|]|e].
  - rewrite A by discriminate.
    destruct (handle_content C ct d c2) as [r3 c3] eqn:Hd.
    rewrite (blind_ext _ _ b c2 r3 c3 (bl_handle C ct d) (handle_in C ct d) Hd).
    destruct r3 as [?|e].
    + injection H; intros <- <-. split; [reflexivity | discriminate].
    + destruct (G _ _ _ _ H) as [G1 G2]. split; [intros _; exact G1 | intro; congruence].
  - injection H; intros <- <-. split; [congruence|]. intros _.
    destruct (B eq_refl) as [-> | ->]; [left; reflexivity | right; reflexivity].
  - rewrite A by discriminate. destruct (G _ _ _ _ H) as [G1 G2]. split; [intros _; exact G1 | intro; congruence].
Qed.
Lemma guarded_mfl C c : mfl_good c -> mfl_good (snd (guarded C (receive_one C) c)).
Proof.
  apply (stable_guarded C mflR (mflR_stable C)).
  apply (stable_receive_one C mflR (mflR_stable C)); intros; exact (fun H => H).
Qed.
Lemma guarded_listens C c r c1 : can_receive (c_state c) = true -> guarded C (receive_one C) c = (Ok r, c1) -> can_receive (c_state c1) = true.
Proof.
  intros K. unfold guarded, receive_one. unfold bind at 1.
  pose proof (reading_content C c) as Rd. apply reading_state in Rd.
  destruct (read_next_content C c) as [[[[ct d]|]|e] c2]; cbn [snd] in Rd.
  - unfold bind. pose proof (li_handle C ct d c2) as L. rewrite Rd in L. specialize (L K).
    destruct (handle_content C ct d c2) as [[?|e] c3]; cbn [snd] in L.
    + intro H; injection H; intros <- _. exact L.
    + destruct (fail _ _ _) as [[?|?] ?]; discriminate.
  - unfold ret. intro H; injection H; intros <- _. rewrite Rd. exact K.
  - destruct (fail _ _ _) as [[?|?] ?]; discriminate.
Qed.
Lemma mfl_pos c : mfl_good c -> 1 <= max_frag c.
Proof. intro M. pose proof (valid_mfl_range _ (mfl_good_max _ M)). lia. Qed.
Lemma loops_mfl C c x : loops C c x -> mfl_good c -> mfl_good (snd x).
Proof.
  induction 1 as [c c1 H|c e c1 H|c c1 x H L IH]; intro M; pose proof (guarded_mfl C c M) as K; rewrite H in K; cbn [snd] in *; auto.
Qed.
Lemma loops_listens C c x : loops C c x -> forall c1, x = (Ok tt, c1) -> can_receive (c_state c) = true -> can_receive (c_state c1) = true.
Proof.
  induction 1 as [c c1 H|c e c1 H|c c1 x H L IH]; intros c0 E K; subst.
  - injection E; intros <-. eapply guarded_listens; eassumption.
  - discriminate.
  - apply IH; [reflexivity|]. eapply guarded_listens; eassumption.
Qed.
Lemma loops_ext C b c x : loops C c x -> mfl_good c ->
  match x with
  | (Err e, c1) => loops C (ext b c) (Err e, ext b c1)
  | (Ok _, c1) => (forall y, loops C (ext b c1) y -> loops C (ext b c) y) \/ loops C (ext b c) (Ok tt, ext b c1)
  end.
Proof.
  induction 1 as [c c1 H|c e c1 H|c c1 x H L IH]; intro M; pose proof (mfl_pos _ M) as P.
  - destruct (one_ext C c b _ c1 P H) as [_ B]. destruct (B eq_refl) as [B1|B1].
    + left. intros y Y. inversion Y; subst; rewrite <- B1 in *;
        [apply loops_stop; assumption | apply loops_err; assumption | eapply loops_more; eassumption].
    + right. apply loops_stop. exact B1.
  - destruct (one_ext C c b _ c1 P H) as [A _]. apply loops_err. apply A. discriminate.
  - destruct (one_ext C c b _ c1 P H) as [A _]. specialize (A ltac:(discriminate)).
    pose proof (guarded_mfl C c M) as M1. rewrite H in M1. specialize (IH M1).
    destruct x as [[?|e] c2].
    + destruct IH as [IH|IH]; [left; intros y Y; eapply loops_more; [exact A | apply IH; exact Y] | right; eapply loops_more; [exact A | exact IH]].
    + eapply loops_more; [exact A | exact IH].
Qed.
(* nothing to read *)
Lemma hungry_loops C c : hungry c -> loops C c (Ok tt, c).
Proof.
  intros [[S I] L]. apply loops_stop. unfold guarded, receive_one, bind. rewrite content_eq, read_record_eq. cbv zeta. rewrite S.
  change (rec_max c) with (max_record c).
  assert (E : cset_in (c_in c) c = c) by (destruct c; reflexivity).
  destruct (blen (c_in c) <? 5) eqn:E1.
  { cbn. rewrite E. reflexivity. }
  apply N.ltb_ge in E1. assert (max_record c <? rec_len (c_in c) = false) as -> by (apply N.ltb_ge; apply L; exact E1).
  destruct I as [I|I]; [lia|]. rewrite (proj2 (N.ltb_lt _ _) I). cbn. rewrite E. reflexivity.
Qed.

(* --- receive_data ------------------------------------------------------ *)
Definition rekeying (c : conn) : res unit :=
  match c_cipher c with
  | None => Ok tt
  | Some x => match should_rekey x with
              | Err e => Err e
              | Ok false => Ok tt
              | Ok true => if can_send (c_state c) then Err XNotImpl else Err XTLS
              end
  end.
Definition finish (x : res unit * conn) : res unit * conn :=
  match x with (Ok _, c) => (rekeying c, c) | (Err e, c) => (Err e, c) end.
Lemma receive_loops C d c x : d <> [] -> can_receive (c_state c) = true -> loops C (ext d c) x -> receive_data C d c = finish x.
Proof.
  intros Hd Hr H. unfold receive_data. replace (is_nil d) with false by (destruct d; [congruence|reflexivity]).
  rewrite bind_get, Hr. cbn [negb]. rewrite bind_modify.
  pose proof (loop_terminates C (length (c_in c ++ d)) (cset_in (c_in c ++ d) c) (le_n _)) as T.
  pose proof (loops_fun _ _ _ H _ T) as E. unfold with_more in *. rewrite E.
  destruct (receive_loop (length (c_in c ++ d)) C (cset_in (c_in c ++ d) c)) as [r c1] eqn:E'.
  rewrite (bind_eq _ _ _ _ _ _ _ E'). destruct r as [[]|e]; cbn [finish]; [|reflexivity].
  rewrite bind_get. unfold bind, rekeying. destruct (c_cipher c1) as [y|]; [|reflexivity].
  unfold lift. destruct (should_rekey y) as [[|]|]; try reflexivity.
  unfold rekey. rewrite bind_get. destruct (can_send (c_state c1)); reflexivity.
Qed.
Lemma rekeying_due c : rekey_due c = false -> rekeying c = Ok tt.
Proof. unfold rekey_due, rekeying. destruct (c_cipher c) as [x|]; [|reflexivity]. destruct (should_rekey x) as [[|]|]; congruence. Qed.
Lemma finish_ext b c : finish (Ok tt, ext b c) = (rekeying c, ext b c). Proof. reflexivity. Qed.

Lemma split_feed C : forall ds c r c' rest, (forall d, In d ds -> d <> []) -> ds <> [] -> mfl_good c -> can_receive (c_state c) = true ->
  (forall c1, loops C (ext (concat ds) c) (Ok tt, c1) -> hungry c1) ->
  feed C ds c = (r, c', rest) -> rest = [] \/ rekey_due c' = false ->
  receive_data C (concat ds) c = (r, ext (concat rest) c').
Proof.
  induction ds as [|d ds IH]; intros c r c' rest Ne N0 M Cr Hu F Rk; [congruence|]. clear N0.
  assert (Hd : d <> []) by (apply Ne; left; reflexivity).
  destruct ds as [|d2 ds'].
  { cbn [concat]. rewrite app_nil_r. cbn [feed] in F.
    destruct (receive_data C d c) as [[[]|e] c1]; injection F; intros <- <- <-; cbn [concat]; rewrite ext_nil; reflexivity. }
  set (ds := d2 :: ds') in *. assert (Hds : ds <> []) by (unfold ds; congruence).
  assert (Nds : concat ds <> []).
  { unfold ds. cbn [concat]. intro Z. apply app_eq_nil in Z. apply (Ne d2); [right; left; reflexivity | apply Z]. }
  change (concat (d :: ds)) with (d ++ concat ds) in *.
  assert (Hw : d ++ concat ds <> []) by (intro Z; apply app_eq_nil in Z; tauto).
  pose proof (loop_terminates C (length (c_in (ext d c))) (ext d c) (le_n _)) as T.
  set (x := receive_loop (length (c_in (ext d c))) C (ext d c)) in *.
  pose proof (loops_ext C (concat ds) _ _ T M) as X. rewrite ext_app in X.
  pose proof (receive_loops C d c x Hd Cr T) as E.
  cbn [feed] in F. rewrite E in F.
  pose proof (loops_mfl _ _ _ T M) as M1.
  pose proof (loops_listens C _ _ T) as Li.
  destruct x as [[[]|e] c1]; cbn [finish snd] in *.
  2:{ injection F; intros <- <- <-. apply (receive_loops C _ c _ Hw Cr X). }
  specialize (Li c1 eq_refl Cr).
  destruct (rekeying c1) as [[]|e] eqn:Rk1.
  2:{ cbv beta iota in F. pose proof (f_equal snd F) as F1. pose proof (f_equal (fun z => snd (fst z)) F) as F2. cbn [fst snd] in F1, F2. rewrite <- F1, <- F2 in Rk. destruct Rk as [Rk|Rk]; [exfalso; exact (Hds Rk)|]. apply rekeying_due in Rk. congruence. }
  assert (W : exists y, loops C (ext (concat ds) c1) y /\ loops C (ext (d ++ concat ds) c) y).
  { destruct X as [X|X].
    - exists (receive_loop (length (c_in (ext (concat ds) c1))) C (ext (concat ds) c1)).
      split; [apply loop_terminates; lia | apply X, loop_terminates; lia].
    - exists (Ok tt, ext (concat ds) c1). split; [|exact X]. apply hungry_loops. apply Hu. exact X. }
  destruct W as (y & W1 & W2).
  rewrite (receive_loops C _ c _ Hw Cr W2), <- (receive_loops C (concat ds) c1 _ Nds Li W1).
  apply (IH c1 r c' rest); try assumption.
  - intros q Hq. apply Ne. right. exact Hq.
  - intros c2 L2. apply Hu. pose proof (loops_fun _ _ _ L2 _ W1) as Q. rewrite Q. exact W2.
Qed.

(* checking a case *)
Definition hungryb (c : conn) : bool :=
  beqb (skip_ccs (c_in c)) (c_in c) &&
  ((blen (c_in c) <? 5) || ((blen (c_in c) - 5 <? record_length (c_in c)) && (record_length (c_in c) <=? max_record c))).
Lemma hungry_ok c : hungryb c = true -> hungry c.
Proof.
  unfold hungryb, hungry, incomplete. intro H. apply andb_true_iff in H. destruct H as [H1 H2].
  apply beqb_eq in H1. apply orb_true_iff in H2. destruct H2 as [H2|H2].
  - apply N.ltb_lt in H2. split; [split; [exact H1 | left; exact H2] | intro; lia].
  - apply andb_true_iff in H2. destruct H2 as [H2 H3]. apply N.ltb_lt in H2. apply N.leb_le in H3. auto.
Qed.
Lemma hungry_check C c : hungryb (snd (receive_loop (length (c_in c)) C c)) = true ->
  forall c1, loops C c (Ok tt, c1) -> hungry c1.
Proof.
  intros H c1 L. apply hungry_ok. pose proof (loop_terminates C (length (c_in c)) c (le_n _)) as T.
  rewrite <- (loops_fun _ _ _ L _ T) in H. exact H.
Qed.
