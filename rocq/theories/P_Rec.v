(* The record layer, reading side. *)
From Verif Require Import Base P_Base Iana Crypto Config Serial Ext Msg Hkdf Cipher Kex Sig Ocsp Transcript Conn S_Hist S_Conn P_Monad P_Frame.

Lemma skip_ccs_len : forall n b, (length b <= n)%nat -> (length (skip_ccs b) <= length b)%nat.
Proof.
  induction n as [|n IH]; intros b Hn.
  - destruct b; [cbn; lia | cbn in Hn; lia].
  - destruct b as [|b0 b]; [cbn; lia|].
    destruct b0; try (cbn; lia).
    destruct b as [|b1 b]; [cbn; lia|]. destruct b as [|b2 b]; [cbn; lia|].
    destruct b as [|b3 b]; [cbn; lia|]. destruct b3; try (cbn; lia).
    destruct b as [|b4 b]; [cbn; lia|]. destruct b4; try (cbn; lia).
    destruct b as [|b5 b]; [cbn; lia|]. destruct b5; try (cbn; lia).
    cbn [skip_ccs]. cbn [length] in *. specialize (IH b). lia.
Qed.

Notation rec_len := record_length.
Definition rec_max (c : conn) : N := max_frag c + (if dec_on c then 256 else 0).

(* the unprotected fragment of the record at the head of [i] *)
Definition unprotect (C : crypto) (i : bytes) : M (N * bytes) :=
  do c <- get;
  let fragment := btake (rec_len i) (bdrop 5 i) in
  if dec_on c
  then do inner <- on_cipher (decrypt C fragment (btake 5 i)); lift (inner_plaintext inner)
  else ret (of_bytes (btake 1 i), fragment).

Lemma read_record_eq C c :
  read_next_record C c =
  let i := skip_ccs (c_in c) in
  let c1 := cset_in i c in
  if blen i <? 5 then (Ok None, c1)
  else if rec_max c <? rec_len i then (Err XAttr, c1)
  else if blen i - 5 <? rec_len i then (Ok None, c1)
  else match unprotect C i (cset_in (bdrop (rec_len i + 5) i) c) with
       | (Ok (ct, f), c2) =>
         if ct =? CT_CCS then (Err (XAlert UNEXPECTED_MESSAGE), c2) else (Ok (Some (ct, f)), c2)
       | (Err e, c2) => (Err e, c2)
       end.
Proof.
  cbv zeta. unfold read_next_record. rewrite bind_modify, bind_get. cbv zeta.
  set (i := skip_ccs (c_in c)).
  change (c_in (cset_in i c)) with i.
  change (dec_on (cset_in i c)) with (dec_on c).
  change (max_frag (cset_in i c)) with (max_frag c).
  change (of_bytes (btake 2 (bdrop 3 i))) with (rec_len i). unfold rec_max.
  destruct (blen i <? 5); [reflexivity|].
  destruct (_ <? rec_len i); [reflexivity|].
  destruct (blen i - 5 <? rec_len i); [reflexivity|].
  rewrite bind_modify. unfold unprotect. rewrite bind_get. cbv zeta.
  change (cset_in (bdrop (rec_len i + 5) i) (cset_in i c)) with (cset_in (bdrop (rec_len i + 5) i) c).
  change (dec_on (cset_in (bdrop (rec_len i + 5) i) c)) with (dec_on c).
  destruct (dec_on c).
  - unfold bind at 1.
    destruct (bind (on_cipher _) _ _) as [[[ct f]|e] c2]; [|reflexivity].
    destruct (ct =? CT_CCS); reflexivity.
  - unfold bind, ret. destruct (of_bytes _ =? CT_CCS); reflexivity.
Qed.

Lemma unprotect_in C i : rel (fun c c' => c_in c' = c_in c /\ c_inhs c' = c_inhs c) (unprotect C i).
Proof.
  assert (P : preorder (fun c c' => c_in c' = c_in c /\ c_inhs c' = c_inhs c)).
  { split; [auto | intros a b c [] []; split; congruence]. }
  unfold unprotect. cbv zeta. reli P.
  apply (rel_on_cipher _ P). intros; auto.
Qed.

Lemma skip_ccs_idem_n : forall n b, (length b <= n)%nat -> skip_ccs (skip_ccs b) = skip_ccs b.
Proof.
  induction n as [|n IH]; intros b Hn.
  - destruct b; [reflexivity | cbn in Hn; lia].
  - destruct b as [|b0 b]; [reflexivity|].
    destruct b0; try reflexivity.
    destruct b as [|b1 b]; [reflexivity|]. destruct b as [|b2 b]; [reflexivity|].
    destruct b as [|b3 b]; [reflexivity|]. destruct b3; try reflexivity.
    destruct b as [|b4 b]; [reflexivity|]. destruct b4; try reflexivity.
    destruct b as [|b5 b]; [reflexivity|]. destruct b5; try reflexivity.
    cbn [skip_ccs]. apply IH. cbn in Hn. lia.
Qed.
Lemma skip_ccs_idem b : skip_ccs (skip_ccs b) = skip_ccs b.
Proof. apply (skip_ccs_idem_n (length b)). lia. Qed.

Lemma read_record_inv C c r c' :
  read_next_record C c = (r, c') ->
  (r = Ok None /\ c' = cset_in (skip_ccs (c_in c)) c /\ incomplete (c_in c')) \/
  (r = Err XAttr /\ c' = cset_in (skip_ccs (c_in c)) c /\ rec_max c < rec_len (c_in c')) \/
  (blen (c_in c') + 5 <= blen (c_in c) /\ c_inhs c' = c_inhs c /\ r <> Ok None /\
   (forall ct f, r = Ok (Some (ct, f)) -> ct <> CT_CCS)).
Proof.
  rewrite read_record_eq. cbv zeta. set (i := skip_ccs (c_in c)).
  destruct (blen i <? 5) eqn:E1.
  { intro H; injection H; intros; subst. left. apply N.ltb_lt in E1.
    split; [reflexivity|]. split; [reflexivity|]. split; [apply skip_ccs_idem | left; exact E1]. }
  apply N.ltb_ge in E1.
  destruct (rec_max c <? rec_len i) eqn:E2.
  { intro H; injection H; intros; subst. right; left. apply N.ltb_lt in E2. auto. }
  destruct (blen i - 5 <? rec_len i) eqn:E3.
  { intro H; injection H; intros; subst. left. apply N.ltb_lt in E3.
    split; [reflexivity|]. split; [reflexivity|]. split; [apply skip_ccs_idem | right; exact E3]. }
  intro H. right; right.
  pose proof (unprotect_in C i (cset_in (bdrop (rec_len i + 5) i) c)) as [U1 U2].
  destruct (unprotect C i _) as [r0 c2]. cbn [snd c_in c_inhs cset_in] in U1, U2.
  assert (L : blen (c_in c2) + 5 <= blen (c_in c)).
  { rewrite U1, blen_bdrop. apply N.ltb_ge in E3.
    pose proof (skip_ccs_len _ (c_in c) (le_n _)) as L. fold i in L.
    unfold blen in *. lia. }
  destruct r0 as [[ct f]|e].
  - destruct (ct =? CT_CCS) eqn:E4; injection H; intros; subst; (split; [exact L|]); (split; [exact U2|]).
    + split; discriminate.
    + split; [discriminate|]. intros ct' f' Q; injection Q; intros; subst. apply N.eqb_neq. exact E4.
  - injection H; intros; subst. split; [exact L|]. split; [exact U2|]. split; discriminate.
Qed.

(* the handshake reassembly consumes at least what it reads *)
Lemma read_record_le C c r c' : read_next_record C c = (r, c') -> blen (c_in c') <= blen (c_in c).
Proof.
  intro H. apply read_record_inv in H.
  assert (L : blen (skip_ccs (c_in c)) <= blen (c_in c)).
  { pose proof (skip_ccs_len _ (c_in c) (le_n _)). unfold blen. lia. }
  destruct H as [(_ & H & _) | [(_ & H & _) | (H & _)]]; subst; cbn [c_in cset_in] in *; lia.
Qed.
Lemma fill_le C : forall n c r c', fill_handshake n C c = (r, c') -> blen (c_in c') <= blen (c_in c).
Proof.
  induction n as [|n IH]; intros c r c'; cbn [fill_handshake]; rewrite bind_get.
  - destruct (_ <? _); intro H; injection H; intros; subst; lia.
  - destruct (_ <? _); [|intro H; injection H; intros; subst; lia].
    unfold bind at 1. destruct (read_next_record C c) as [r0 c1] eqn:E.
    apply read_record_le in E.
    destruct r0 as [[[ct f]|]|e].
    + destruct (negb _); [intro H; injection H; intros; subst; lia|].
      rewrite bind_modify. intro H. apply IH in H. cbn in H. lia.
    + intro H; injection H; intros; subst; lia.
    + intro H; injection H; intros; subst; lia.
Qed.
(* enough fuel *)
Lemma fill_fuel C : forall n m c, (length (c_in c) < n)%nat -> (length (c_in c) < m)%nat ->
  fill_handshake n C c = fill_handshake m C c.
Proof.
  induction n as [|n IH]; intros m c Hn Hm; [lia|]. destruct m as [|m]; [lia|].
  cbn [fill_handshake]. rewrite !bind_get. destruct (_ <? _); [|reflexivity].
  unfold bind at 1 3. destruct (read_next_record C c) as [r0 c1] eqn:E.
  pose proof E as E'. apply read_record_inv in E.
  destruct r0 as [[[ct f]|]|e]; try reflexivity.
  destruct (negb _); [reflexivity|].
  rewrite !bind_modify.
  destruct E as [(E & _) | [(E & _) | (E & _)]]; try discriminate.
  unfold blen in E. apply IH; cbn; lia.
Qed.

Lemma read_content_lt C c ct d c' :
  read_next_content C c = (Ok (Some (ct, d)), c') -> blen (c_in c') + 5 <= blen (c_in c).
Proof.
  unfold read_next_content. unfold bind at 1. destruct (read_next_record C c) as [r0 c1] eqn:E.
  apply read_record_inv in E.
  destruct r0 as [[[t f]|]|e]; try discriminate.
  destruct E as [(E & _) | [(E & _) | (E & _)]]; try discriminate.
  rewrite bind_get. destruct (_ && _).
  { intro H; injection H; intros; subst. exact E. }
  destruct (negb _); [discriminate|].
  rewrite bind_modify, bind_get. destruct (_ <? 4); [discriminate|].
  unfold bind at 1. match goal with |- context [fill_handshake ?n C ?x] => destruct (fill_handshake n C x) as [r1 c2] eqn:E1 end.
  apply fill_le in E1. cbn in E1.
  destruct r1 as [[|]|e]; try discriminate. cbn [negb]. rewrite bind_get.
  destruct (_ <? _); [discriminate|]. rewrite bind_modify.
  intro H; injection H; intros; subst. cbn. lia.
Qed.

Definition keep_in (c c' : conn) : Prop := c_in c' = c_in c /\ c_inhs c' = c_inhs c.
Lemma keep_in_stable C : stable C keep_in.
Proof.
  apply any_stable. split; try (intros; split; reflexivity).
  split; [split; reflexivity | intros a b c [] []; split; congruence].
Qed.
Lemma handle_in C ct d c : c_in (snd (handle_content C ct d c)) = c_in c.
Proof. apply (stable_handle C _ (keep_in_stable C)). intros; split; reflexivity. Qed.
Lemma fail_in C a c : c_in (snd (fail C a c)) = c_in c.
Proof. apply (stable_fail C _ (keep_in_stable C)). Qed.

Lemma receive_one_lt C c c' :
  receive_one C c = (Ok true, c') -> blen (c_in c') + 5 <= blen (c_in c).
Proof.
  unfold receive_one. unfold bind at 1. destruct (read_next_content C c) as [r0 c1] eqn:E.
  destruct r0 as [[[t f]|]|e]; try discriminate.
  apply read_content_lt in E. unfold bind. pose proof (handle_in C t f c1) as K.
  destruct (handle_content C t f c1) as [[|] c2]; [|discriminate].
  intro H; injection H; intros; subst. cbn in K. rewrite K. exact E.
Qed.
Lemma guarded_lt C c c' :
  guarded C (receive_one C) c = (Ok true, c') -> blen (c_in c') + 5 <= blen (c_in c).
Proof.
  unfold guarded. destruct (receive_one C c) as [[b|e] c1] eqn:E.
  - intro H; injection H; intros; subst. apply receive_one_lt in E. exact E.
  - destruct (fail _ _ _) as [[|] ?]; discriminate.
Qed.
Lemma loop_fuel C : forall n m c, (length (c_in c) <= n)%nat -> (length (c_in c) <= m)%nat ->
  receive_loop n C c = receive_loop m C c.
Proof.
  induction n as [|n IH]; intros m c Hn Hm.
  - destruct m; [reflexivity|]. cbn [receive_loop]. unfold bind.
    destruct (guarded C (receive_one C) c) as [[[|]|] c1] eqn:E; try reflexivity.
    apply guarded_lt in E. unfold blen in E. lia.
  - cbn [receive_loop]. destruct m as [|m]; cbn [receive_loop]; unfold bind;
    destruct (guarded C (receive_one C) c) as [[[|]|] c1] eqn:E; try reflexivity;
    apply guarded_lt in E; unfold blen in E; [lia|].
    apply IH; lia.
Qed.

Lemma loop_terminates C : forall n c, (length (c_in c) <= n)%nat -> loops C c (receive_loop n C c).
Proof.
  induction n as [|n IH]; intros c Hn; cbn [receive_loop]; unfold bind.
  - destruct (guarded C (receive_one C) c) as [[[|]|] c1] eqn:E.
    + apply guarded_lt in E. unfold blen in E. lia.
    + apply loops_stop. exact E.
    + apply loops_err. exact E.
  - destruct (guarded C (receive_one C) c) as [[[|]|] c1] eqn:E.
    + eapply loops_more; [exact E|]. cbn [negb]. apply IH. apply guarded_lt in E. unfold blen in E. lia.
    + apply loops_stop. exact E.
    + apply loops_err. exact E.
Qed.
Lemma loops_fun C c x : loops C c x -> forall y, loops C c y -> x = y.
Proof.
  induction 1 as [c c1 H|c e c1 H|c c1 x H L IH]; intros y Y; inversion Y; subst; try congruence.
  apply IH. congruence.
Qed.

(* --- what is left when the loop stops ---------------------------------- *)
Lemma fill_false C : forall n c c', fill_handshake n C c = (Ok false, c') -> incomplete (c_in c').
Proof.
  induction n as [|n IH]; intros c c'; cbn [fill_handshake]; rewrite bind_get; (destruct (_ <? _); [|discriminate]).
  - discriminate.
  - unfold bind at 1. destruct (read_next_record C c) as [r0 c1] eqn:E.
    apply read_record_inv in E.
    destruct r0 as [[[ct f]|]|e]; try discriminate.
    + destruct (negb _); [discriminate|]. rewrite bind_modify. apply IH.
    + intro H; injection H; intros; subst.
      destruct E as [(_ & _ & E) | [(E & _) | (_ & _ & E & _)]]; [exact E | discriminate | congruence].
Qed.
Lemma read_content_none C c c' : read_next_content C c = (Ok None, c') ->
  incomplete (c_in c') \/ stalled C c'.
Proof.
  unfold read_next_content. unfold bind at 1. destruct (read_next_record C c) as [r0 c1] eqn:E.
  pose proof E as E0. apply read_record_inv in E.
  destruct r0 as [[[ct f]|]|e]; try discriminate.
  2:{ intro H; injection H; intros; subst.
      destruct E as [(_ & _ & E) | [(E & _) | (_ & _ & E & _)]]; [left; exact E | discriminate | congruence]. }
  rewrite bind_get. destruct (_ && _); [discriminate|].
  destruct (negb _) eqn:Eh; [discriminate|]. apply negb_false_iff, N.eqb_eq in Eh. subst ct.
  rewrite bind_modify, bind_get.
  destruct (_ <? 4) eqn:E4.
  { intro H; injection H; intros; subst. right. apply N.ltb_lt in E4. split; [exact E4|].
    exists c, f, c1. auto. }
  unfold bind at 1. match goal with |- context [fill_handshake ?n C ?x] => destruct (fill_handshake n C x) as [r1 c2] eqn:E1 end.
  destruct r1 as [[|]|e]; try discriminate; cbn [negb].
  - rewrite bind_get. destruct (hs_len (c_inhs c2) <? blen (c_inhs c2) - 4); discriminate.
  - intro H; injection H; intros; subst. left. eapply fill_false. exact E1.
Qed.
Lemma loop_rest C c x : loops C c x -> forall c', x = (Ok tt, c') -> incomplete (c_in c') \/ stalled C c'.
Proof.
  induction 1 as [c c1 H|c e c1 H|c c1 x H L IH]; intros c' E; subst.
  - injection E; intros; subst. revert H. unfold guarded, receive_one. unfold bind at 1.
    destruct (read_next_content C c) as [[[[ct d]|]|e] c0] eqn:R.
    + unfold bind. destruct (handle_content C ct d c0) as [[|] ?]; [discriminate|].
      destruct (fail _ _ _) as [[|] ?]; discriminate.
    + cbn. intro H; injection H; intros; subst. eapply read_content_none; exact R.
    + destruct (fail _ _ _) as [[|] ?]; discriminate.
  - discriminate.
  - apply IH; reflexivity.
Qed.

Lemma receive_data_loops C d c : d <> [] -> can_receive (c_state c) = true ->
  exists x, loops C (cset_in (c_in c ++ d) c) x /\
    snd (receive_data C d c) = snd x /\
    (forall e, fst x = Err e -> fst (receive_data C d c) = Err e).
Proof.
  intros Hd Hr. unfold receive_data. replace (is_nil d) with false by (destruct d; [congruence|reflexivity]).
  rewrite bind_get, Hr. cbn [negb]. rewrite bind_modify.
  pose proof (loop_terminates C (length (c_in c ++ d)) (cset_in (c_in c ++ d) c)) as T.
  specialize (T (le_n _)).
  exists (receive_loop (length (c_in c ++ d)) C (cset_in (c_in c ++ d) c)). split; [exact T|]. clear T.
  destruct (receive_loop (length (c_in c ++ d)) C (cset_in (c_in c ++ d) c)) as [r c1] eqn:E.
  rewrite (bind_eq _ _ _ _ _ _ _ E). destruct r as [[]|e]; cbn [snd fst].
  2:{ split; [reflexivity|]. intros e0 H; injection H; intros; subst; reflexivity. }
  split; [|discriminate].
  rewrite bind_get. unfold bind. destruct (c_cipher c1) as [x|]; [|reflexivity].
  unfold lift. destruct (should_rekey x) as [[|]|]; try reflexivity.
  unfold rekey. rewrite bind_get. destruct (negb _); reflexivity.
Qed.
