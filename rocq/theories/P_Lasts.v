(* C77: proofs. *)
From Verif Require Import Base P_Base Iana Crypto Config Serial Ext Msg Cipher Conn S_Hist S_Conn S_Nonce S_Send S_Alert S_Deliver S_Lasts
  P_Monad P_Hist P_Send P_Alert P_Split P_Deliver.

Lemma deliver_result C a b p rest sent got : aead_correct C -> p <> [] -> flow C a b (p ++ rest) sent got ->
  fst (step C (ORecv p) b) = match rekeying b with Ok _ => Ok [] | Err e => Err e end.
Proof.
  intros AC Hp (xa & yb & x & ds & n & F1 & F2 & F3 & F4 & F5 & F6 & F7 & F8 & F9 & F10 & F11 & F12 & F13).
  destruct (loop_stream C (max_frag a) (max_frag a) AC ds x yb (cset_in (c_in b ++ p) b) (rest ++ c_out a))
    as (ds1 & ds2 & i & E1 & E2 & E3).
  { destruct F5 as (A & B & _ & D & E). repeat split; auto. }
  { exact F6. } { exact F4. } { exact F10. }
  { cbn [c_in cset_in]. rewrite <- F11, <- !app_assoc. reflexivity. }
  assert (Hr : can_receive (c_state b) = true).
  { destruct F5 as (A & _). destruct (c_state b) as [ | | | | | | | | | | |r w| ]; try discriminate; try reflexivity.
    destruct r; [reflexivity|discriminate]. }
  unfold step. unfold bind. rewrite (receive_loops C p b _ Hp Hr E2). cbn [finish].
  assert (R : rekeying (cset_app (c_app (cset_in (c_in b ++ p) b) ++ concat ds1)
     (cset_cipher (Some (rbumps (length ds1) yb)) (cset_in i (cset_in (c_in b ++ p) b)))) = rekeying b).
  { unfold rekeying. cbn [c_cipher cset_app cset_cipher c_state cset_in]. destruct F5 as (_ & _ & _ & -> & _).
    destruct (rbumps_w (length ds1) yb) as [W1 W2]. unfold should_rekey. rewrite W1, W2. reflexivity. }
  rewrite R. destruct (rekeying b) as [[]|e]; reflexivity.
Qed.

Lemma reachable_after C g c o : reachable C g c -> reachable C g (after C o c).
Proof.
  intros (c0 & ops & A & ->). exists c0, (ops ++ [o]). split; [exact A|].
  clear A. revert c0. induction ops as [|q ops IH]; intro c0; [reflexivity|]. cbn [run app]. apply IH.
Qed.
Lemma built_move C w w' : moves C w w' -> built C w -> built C w'.
Proof.
  induction 1 as [w d S R | w | w p rest E Hp | w | w w' M IH]; intros [[g A] [h B]].
  1-4: split; cbn [w_a w_b]; eexists; try eassumption; apply reachable_after; eassumption.
  destruct IH as [I1 I2]; [split; cbn; eexists; eassumption|]. split; assumption.
Qed.
Lemma built_traffic C w w' : traffic C w w' -> built C w -> built C w'.
Proof. induction 1; [auto|]. intro. eapply built_move; eauto. Qed.

Lemma used_rekeying C g c P : reachable C g c -> enc_on c = true -> used P c ->
  exists x lim q, c_cipher c = Some x /\ usage_limit (cs_suite x) = Some lim /\ d_seq (cs_w x) = Some q /\ q_limit q = lim /\ P (q_next q) lim /\ 1024 < lim.
Proof.
  intros R En (x & lim & q & A & B & D & E). exists x, lim, q.
  pose proof (reachable_iv C g c R) as Iv. unfold ivI in Iv. rewrite A in Iv. destruct Iv as [Iv _].
  unfold dir_ok in Iv. unfold enc_on in En. rewrite A in En. unfold must_encrypt in En.
  destruct (d_key (cs_w x)) as [k|]; [|discriminate]. destruct Iv as (iv & Eiv & Liv & Q).
  pose proof (limit_table_usage _ _ B) as U. destruct (Q lim U) as (q' & Eq & El). rewrite D in Eq. injection Eq as <-.
  repeat split; try assumption. cbn in B.
  repeat (destruct B as [B|B]; [injection B as _ <-; reflexivity|]). destruct B.
Qed.

Lemma fresh_rekeying C g c : reachable C g c -> enc_on c = true -> fresh c -> rekeying c = Ok tt.
Proof.
  intros R En F. destruct (used_rekeying _ _ _ _ R En F) as (x & lim & q & A & B & D & E & G & L).
  unfold rekeying, should_rekey, seq_peek. rewrite A, D, E.
  replace (q_next q <? lim) with true by (symmetry; apply N.ltb_lt; lia). cbn [rbind]. rewrite B.
  unfold REKEY_THRESHOLD. replace (lim - 1024 <=? q_next q) with false by (symmetry; apply N.leb_gt; lia). reflexivity.
Qed.
Lemma tired_rekeying C g c : reachable C g c -> enc_on c = true -> tired c ->
  rekeying c = Err (if can_send (c_state c) then XNotImpl else XTLS).
Proof.
  intros R En F. destruct (used_rekeying _ _ _ _ R En F) as (x & lim & q & A & B & D & E & [G1 G2] & L).
  unfold rekeying, should_rekey, seq_peek. rewrite A, D, E.
  replace (q_next q <? lim) with true by (symmetry; apply N.ltb_lt; lia). cbn [rbind]. rewrite B.
  unfold REKEY_THRESHOLD. replace (lim - 1024 <=? q_next q) with true by (symmetry; apply N.leb_le; lia).
  destruct (can_send (c_state c)); reflexivity.
Qed.
Lemma worn_rekeying C g c : reachable C g c -> enc_on c = true -> worn c -> rekeying c = Err XStop.
Proof.
  intros R En F. destruct (used_rekeying _ _ _ _ R En F) as (x & lim & q & A & B & D & E & G & L).
  unfold rekeying, should_rekey, seq_peek. rewrite A, D, E.
  replace (q_next q <? lim) with false by (symmetry; apply N.ltb_ge; lia). reflexivity.
Qed.

Lemma flow_enc C a b net sent got : flow C a b net sent got -> enc_on a = true.
Proof. intros (xa & yb & x & ds & n & F1 & F2 & _). unfold enc_on. rewrite F1. exact F2. Qed.

Lemma lasts C w w' p rest : aead_correct C -> built C w -> linked w -> traffic C w w' ->
  w_ab w' = p ++ rest -> p <> [] -> fresh (w_b w') -> fst (step C (ORecv p) (w_b w')) = Ok [].
Proof.
  intros AC B L T E Hp F. destruct (flows_traffic C AC w w' L T) as [[A1 A2] _]. rewrite E in A1.
  rewrite (deliver_result _ _ _ _ _ _ _ AC Hp A1).
  destruct (built_traffic _ _ _ T B) as [_ [g R]].
  rewrite (fresh_rekeying C g _ R (flow_enc _ _ _ _ _ _ A2) F). reflexivity.
Qed.
Lemma tires C w w' p rest : aead_correct C -> built C w -> linked w -> traffic C w w' ->
  w_ab w' = p ++ rest -> p <> [] -> tired (w_b w') ->
  fst (step C (ORecv p) (w_b w')) = Err (if can_send (c_state (w_b w')) then XNotImpl else XTLS).
Proof.
  intros AC B L T E Hp F. destruct (flows_traffic C AC w w' L T) as [[A1 A2] _]. rewrite E in A1.
  rewrite (deliver_result _ _ _ _ _ _ _ AC Hp A1).
  destruct (built_traffic _ _ _ T B) as [_ [g R]].
  rewrite (tired_rekeying C g _ R (flow_enc _ _ _ _ _ _ A2) F). reflexivity.
Qed.
Lemma worn_receives C w w' p rest : aead_correct C -> built C w -> linked w -> traffic C w w' ->
  w_ab w' = p ++ rest -> p <> [] -> worn (w_b w') -> fst (step C (ORecv p) (w_b w')) = Err XStop.
Proof.
  intros AC B L T E Hp F. destruct (flows_traffic C AC w w' L T) as [[A1 A2] _]. rewrite E in A1.
  rewrite (deliver_result _ _ _ _ _ _ _ AC Hp A1).
  destruct (built_traffic _ _ _ T B) as [_ [g R]].
  rewrite (worn_rekeying C g _ R (flow_enc _ _ _ _ _ _ A2) F). reflexivity.
Qed.

(* --- nothing can be written any more --- *)
Lemma worn_fragment C g c ct f c' : reachable C g c' -> c_cipher c = c_cipher c' -> enc_on c = true -> worn c' ->
  exists e, fst (encrypt_fragment C ct (max_frag c) f c) = Err e.
Proof.
  intros R Ec En W. assert (En' : enc_on c' = true) by (unfold enc_on in *; rewrite <- Ec; exact En).
  destruct (used_rekeying _ _ _ _ R En' W) as (x & lim & q & A & B & D & E & G & L).
  rewrite <- Ec in A. destruct (encrypt_fragment C ct (max_frag c) f c) as [[b|e] c1] eqn:Ef; [|exists e; reflexivity].
  exfalso. apply (encrypt_fragment_ok C ct (max_frag c) f c b c1 x A) in Ef.
  destruct Ef as ((k & iv & q' & _ & _ & Q & Lq & _) & _). rewrite D in Q. injection Q as <-. lia.
Qed.
Lemma worn_content C g k c c0 : reachable C g c0 -> c_cipher c = c_cipher c0 -> max_frag c = max_frag c0 -> enc_on c = true -> worn c0 ->
  match k with KHandshake _ => False | _ => True end -> exists e, fst (send_content C k c) = Err e.
Proof.
  intros R Ec Em En W Hk. destruct (send_content C k c) as [[[]|e] c'] eqn:E; [|exists e; reflexivity]. exfalso.
  apply send_content_inv in E; [|reflexivity].
  destruct E as (_ & _ & data & c1 & frags & out & c2 & A & _ & B & D & E & F).
  assert (c1 = c) as -> by (destruct k; (contradiction || exact B)). clear B.
  pose proof (reachable_mfl C g c0 R) as V. rewrite <- Em in V. pose proof (valid_mfl_range _ V) as Vr.
  assert (Fr : exists f l, frags = f :: l).
  { apply fragments_of_spec in D.
    - destruct frags as [|f l]; [|eauto]. destruct D as (_ & _ & [[_ D]|[_ D]]); [congruence | discriminate].
    - unfold fragment_limit. assert (tag_len c <= 16) by (unfold tag_len; destruct (c_cipher c) as [z|]; [unfold tag_length; repeat destruct (_ =? _); lia | lia]). destruct (enc_on c); lia. }
  destruct Fr as (f & l & ->). cbn [send_fragments] in E. rewrite bind_get in E. rewrite En in E.
  destruct (worn_fragment C g c (content_type k) f c0 R Ec En W) as [e X].
  unfold bind at 1 2 in E. destruct (encrypt_fragment C (content_type k) (max_frag c) f c) as [r c3]. cbn [fst] in X. subst r. discriminate.
Qed.
Lemma worn_sends C g c d : reachable C g c -> enc_on c = true -> worn c -> exists e, fst (step C (OSend d) c) = Err e.
Proof.
  intros R En W. destruct (worn_content C g (KAppData d) c c R eq_refl eq_refl En W I) as [e X].
  unfold step, send_data, bind. destruct (send_content C (KAppData d) c) as [r c']. cbn [fst] in X. subst r. eexists; reflexivity.
Qed.
Lemma worn_closes C g c : reachable C g c -> enc_on c = true -> worn c -> can_send (c_state c) = true ->
  exists e, fst (step C OCloseS c) = Err e.
Proof.
  intros R En W S. unfold step, close_sending_end. unfold bind at 1. rewrite bind_get.
  set (m := match c_state c with Closed _ _ | Failed => ret tt | _ => set_state (Closed true true) end).
  assert (M : exists c1, m c = (Ok tt, c1) /\ c_cipher c1 = c_cipher c /\ max_frag c1 = max_frag c /\ can_send (c_state c1) = true).
  { unfold m. destruct (c_state c) eqn:Es; try discriminate; eexists; (split; [reflexivity|]); repeat split; rewrite ?Es; try reflexivity; assumption. }
  destruct M as (c1 & M1 & M2 & M3 & M4). unfold bind at 1. rewrite M1. rewrite bind_get, M4.
  assert (En1 : enc_on c1 = true) by (unfold enc_on in *; rewrite M2; exact En).
  destruct (worn_content C g (KAlert WARNING CLOSE_NOTIFY) c1 c R M2 M3 En1 W I) as [e X].
  unfold bind at 1. destruct (send_content C (KAlert WARNING CLOSE_NOTIFY) c1) as [r c']. cbn [fst] in X. subst r. eexists; reflexivity.
Qed.

(* --- every connection wears out --- *)
Definition at_count (n : N) : conn -> Prop := used (fun m _ => m = n).
Lemma send_step C g c d P : aead_sized C -> reachable C g c -> enc_on c = true -> can_send_app (c_state c) = true ->
  used P c -> room c -> short c d -> fst (step C (OSend d) c) = Ok [] /\
  used (fun m lim => exists n, m = n + 1 /\ P n lim) (after C (OSend d) c) /\ enc_on (after C (OSend d) c) = true /\
  c_state (after C (OSend d) c) = c_state c /\ max_frag (after C (OSend d) c) = max_frag c /\
  limit_of (after C (OSend d) c) = limit_of c /\ exists r, r <> [] /\ c_out (after C (OSend d) c) = c_out c ++ r.
Proof.
  intros As R En Cs U Ro Sh. pose proof (send_works C g c d As R Ro En Cs Sh) as H. split; [exact H|].
  destruct (send_data C d c) as [[[]|e] a'] eqn:E.
  2:{ unfold step, bind in H. rewrite E in H. discriminate. }
  assert (Af : after C (OSend d) c = a') by (unfold after, step, bind; rewrite E; reflexivity). rewrite Af.
  pose proof En as En'. apply enc_on_inv in En'. destruct En' as (x & Ex & Em).
  destruct (send_one C d c a' x Ex Em (reachable_mfl C g c R) Sh E) as (_ & _ & _ & ->).
  destruct U as (x' & lim & q & A & B & D & G). rewrite Ex in A. injection A as <-.
  assert (Em' : must_encrypt (bump_w x) = true) by (unfold must_encrypt, bump_w in *; cbn; rewrite bump_key; exact Em).
  split.
  { exists (bump_w x), lim, (mkSeq (q_next q + 1) (q_limit q)). split; [reflexivity|]. split; [exact B|].
    split; [unfold bump_w, bump_dir; rewrite D; reflexivity|]. exists (q_next q). split; [reflexivity | exact G]. }
  split; [unfold enc_on; cbn [c_cipher cset_out cset_log cset_cipher]; exact Em'|].
  split; [reflexivity|]. split; [reflexivity|]. split.
  { unfold limit_of. cbn [c_cipher cset_out cset_log cset_cipher]. rewrite Em', Ex, Em. reflexivity. }
  exists (sealed_record C (cs_suite x) (seal_at CT_APPDATA (max_frag c) x d)). split; [discriminate | reflexivity].
Qed.

Lemma can_app_send s : can_send_app s = true -> can_send s = true.
Proof. destruct s; auto; discriminate. Qed.
Lemma used_room P c : used P c -> (forall n lim, P n lim -> n < lim) -> room c.
Proof.
  intros (x & lim & q & A & B & D & E) H y Ey _. rewrite A in Ey. injection Ey as <-. exists lim. split; [exact B|].
  intros q' Q. rewrite D in Q. injection Q as <-. apply H. exact E.
Qed.
Lemma used_imp (P Q : N -> N -> Prop) c : (forall n lim, P n lim -> Q n lim) -> used P c -> used Q c.
Proof. intros H (x & lim & q & A & B & D & E). exists x, lim, q. auto. Qed.
Lemma traffic_app C w1 w2 w3 : traffic C w1 w2 -> traffic C w2 w3 -> traffic C w1 w3.
Proof. intros A B. revert A. induction B as [w|w v u B IH M]; intro A; [exact A|]. exact (tf_more C _ _ _ (IH A) M). Qed.

(* an endpoint may write records until the last one of its key *)
Lemma sends_on C w : aead_sized C -> built C w -> enc_on (w_b w) = true -> can_send_app (c_state (w_b w)) = true ->
  1 <= limit_of (w_b w) -> forall n0 l0, used (fun m lim => m = n0 /\ lim = l0) (w_b w) -> forall k, n0 + k <= l0 ->
  exists w', traffic C w w' /\ w_ab w' = w_ab w /\ w_a w' = w_a w /\
    c_state (w_b w') = c_state (w_b w) /\ enc_on (w_b w') = true /\ limit_of (w_b w') = limit_of (w_b w) /\
    used (fun m lim => m = n0 + k /\ lim = l0) (w_b w').
Proof.
  intros As Bu En Cs Li n0 l0 U k. induction k as [|k IH] using N.peano_ind; intro Hk.
  - exists w. split; [apply tf_none|]. rewrite N.add_0_r. repeat split; assumption.
  - destruct IH as (w1 & T & E1 & E2 & E3 & E4 & E5 & E6); [lia|].
    destruct (built_traffic _ _ _ T Bu) as [_ [g R]].
    assert (Ro : room (w_b w1)).
    { apply (used_room _ _ E6). intros n lim [-> ->]. lia. }
    assert (Sh : short (w_b w1) []) by (unfold short; rewrite E5; change (blen []) with 0; lia).
    destruct (send_step C g (w_b w1) [] _ As R E4 ltac:(rewrite E3; exact Cs) E6 Ro Sh) as (S1 & S2 & S3 & S4 & S5 & S6 & _).
    exists (swap (mkWorld (after C (OSend []) (w_a (swap w1))) (w_b (swap w1)) (w_ab (swap w1)) (w_ba (swap w1))
      (w_sent_a (swap w1) ++ []) (w_sent_b (swap w1)) (w_got_a (swap w1)) (w_got_b (swap w1)))).
    split. { eapply tf_more; [exact T|]. apply mv_swap. apply mv_send; [exact Sh | exact S1]. }
    unfold swap. cbn [w_a w_b w_ab w_ba]. split; [exact E1|]. split; [exact E2|]. split; [rewrite S4; exact E3|].
    split; [exact S3|]. split; [rewrite S6; exact E5|].
    eapply used_imp; [|exact S2]. intros m lim (n & -> & -> & ->). split; lia.
Qed.

Lemma wears C w : aead_correct C -> aead_sized C -> built C w -> linked w -> fresh (w_a w) -> fresh (w_b w) ->
  can_send_app (c_state (w_a w)) = true -> can_send_app (c_state (w_b w)) = true ->
  exists w' p, traffic C w w' /\ w_ab w' = p /\ p <> [] /\ tired (w_b w') /\
    fst (step C (ORecv p) (w_b w')) = Err XNotImpl.
Proof.
  intros AC As Bu Li Fa Fb Ca Cb.
  destruct (flows_traffic C AC w w Li (tf_none C w)) as [[A B] _].
  pose proof (flow_enc _ _ _ _ _ _ A) as Ea. pose proof (flow_enc _ _ _ _ _ _ B) as Eb.
  pose proof Bu as [[ga Ra] [gb Rb]].
  assert (Lm : forall g c, reachable C g c -> 1 <= limit_of c).
  { intros g c R. pose proof (valid_mfl_range _ (reachable_mfl C g c R)) as V. unfold limit_of.
    destruct (c_cipher c) as [x|]; [|lia]. unfold tag_length. destruct (must_encrypt x); [|lia]. destruct (_ =? _); lia. }
  pose proof (Lm _ _ Ra) as La. pose proof (Lm _ _ Rb) as Lb.
  (* a writes one record and flushes it *)
  assert (Sh : short (w_a w) []) by (unfold short; change (blen []) with 0; lia).
  assert (Ro : room (w_a w)). { apply (used_room _ _ Fa). intros n lim Hn. lia. }
  destruct (send_step C ga (w_a w) [] _ As Ra Ea Ca Fa Ro Sh) as (S1 & _ & _ & _ & _ & _ & r & Hr & S7).
  set (w1 := mkWorld (after C (OSend []) (w_a w)) (w_b w) (w_ab w) (w_ba w) (w_sent_a w ++ []) (w_sent_b w) (w_got_a w) (w_got_b w)).
  set (w2 := mkWorld (after C OFlush (w_a w1)) (w_b w1) (w_ab w1 ++ returned C OFlush (w_a w1)) (w_ba w1)
                 (w_sent_a w1) (w_sent_b w1) (w_got_a w1) (w_got_b w1)).
  assert (T2 : traffic C w w2).
  { apply (tf_more C _ w1); [apply (tf_more C _ w); [apply tf_none|]|].
    - exact (mv_send C w [] Sh S1).
    - exact (mv_flush C w1). }
  (* b writes until it is tired *)
  destruct Fb as (x & lim & q & B1 & B2 & B3 & B4).
  destruct (sends_on C w2 As (built_traffic _ _ _ T2 Bu) Eb Cb Lb (q_next q) lim) with (k := lim - 1024 - q_next q)
    as (w3 & T3 & E1 & E2 & E3 & E4 & E5 & E6).
  { exists x, lim, q. auto. } { lia. }
  assert (T : traffic C w w3) by (eapply traffic_app; eassumption).
  assert (Ti : tired (w_b w3)).
  { eapply used_imp; [|exact E6]. intros n l [-> ->]. lia. }
  assert (P : w_ab w3 <> []).
  { rewrite E1. unfold w2, w1. cbn [w_ab w_a w_b]. intro Z. apply app_eq_nil in Z. destruct Z as [_ Z].
    change (returned C OFlush (after C (OSend []) (w_a w))) with (c_out (after C (OSend []) (w_a w))) in Z.
    rewrite S7 in Z. apply app_eq_nil in Z. destruct Z as [_ Z]. congruence. }
  exists w3, (w_ab w3). split; [exact T|]. split; [reflexivity|]. split; [exact P|]. split; [exact Ti|].
  rewrite (tires C w w3 (w_ab w3) [] AC Bu Li T (eq_sym (app_nil_r _)) P Ti).
  rewrite E3. cbn [w_b w2 w1]. rewrite (can_app_send _ Cb). reflexivity.
Qed.
(* and then until it can write nothing any more *)
Lemma wears_out C w : aead_correct C -> aead_sized C -> built C w -> linked w -> fresh (w_b w) ->
  can_send_app (c_state (w_b w)) = true ->
  exists w', traffic C w w' /\ c_state (w_b w') = c_state (w_b w) /\ worn (w_b w') /\
    (forall d, exists e, fst (step C (OSend d) (w_b w')) = Err e) /\
    exists e, fst (step C OCloseS (w_b w')) = Err e.
Proof.
  intros AC As Bu Li Fb Cb.
  destruct (flows_traffic C AC w w Li (tf_none C w)) as [[A B] _].
  pose proof (flow_enc _ _ _ _ _ _ B) as Eb. pose proof Bu as [_ [gb Rb]].
  assert (Lb : 1 <= limit_of (w_b w)).
  { pose proof (valid_mfl_range _ (reachable_mfl C gb _ Rb)) as V. unfold limit_of.
    destruct (c_cipher (w_b w)) as [x|]; [|lia]. unfold tag_length. destruct (must_encrypt x); [|lia]. destruct (_ =? _); lia. }
  destruct Fb as (x & lim & q & B1 & B2 & B3 & B4).
  destruct (sends_on C w As Bu Eb Cb Lb (q_next q) lim) with (k := lim - q_next q) as (w3 & T3 & E1 & E2 & E3 & E4 & E5 & E6).
  { exists x, lim, q. auto. } { lia. }
  assert (W : worn (w_b w3)). { eapply used_imp; [|exact E6]. intros n l [-> ->]. lia. }
  destruct (built_traffic _ _ _ T3 Bu) as [_ [g R]].
  exists w3. split; [exact T3|]. split; [exact E3|]. split; [exact W|]. split.
  - intro d. exact (worn_sends C g _ d R E4 W).
  - apply (worn_closes C g _ R E4 W). rewrite E3. apply can_app_send. exact Cb.
Qed.
Lemma first_record C w : aead_correct C -> aead_sized C -> built C w -> linked w -> fresh (w_a w) -> fresh (w_b w) ->
  can_send_app (c_state (w_a w)) = true ->
  exists w' p, traffic C w w' /\ w_ab w' = p /\ p <> [] /\ fresh (w_b w').
Proof.
  intros AC As Bu Li Fa Fb Ca. destruct (flows_traffic C AC w w Li (tf_none C w)) as [[A B] _].
  pose proof (flow_enc _ _ _ _ _ _ A) as Ea. pose proof Bu as [[ga Ra] [gb Rb]].
  assert (La : 1 <= limit_of (w_a w)).
  { pose proof (valid_mfl_range _ (reachable_mfl C ga _ Ra)) as V. unfold limit_of.
    destruct (c_cipher (w_a w)) as [x|]; [|lia]. unfold tag_length. destruct (must_encrypt x); [|lia]. destruct (_ =? _); lia. }
  assert (Sh : short (w_a w) []) by (unfold short; change (blen []) with 0; lia).
  assert (Ro : room (w_a w)). { apply (used_room _ _ Fa). intros n lim Hn. lia. }
  destruct (send_step C ga (w_a w) [] _ As Ra Ea Ca Fa Ro Sh) as (S1 & _ & _ & _ & _ & _ & r & Hr & S7).
  set (w1 := mkWorld (after C (OSend []) (w_a w)) (w_b w) (w_ab w) (w_ba w) (w_sent_a w ++ []) (w_sent_b w) (w_got_a w) (w_got_b w)).
  eexists; eexists. split; [apply (tf_more C _ w1); [apply (tf_more C _ w); [apply tf_none|]|]|].
  - exact (mv_send C w [] Sh S1).
  - exact (mv_flush C w1).
  - split; [reflexivity|]. split; [|exact Fb]. unfold w1. cbn [w_ab w_a w_b]. intro Z. apply app_eq_nil in Z. destruct Z as [_ Z].
    change (returned C OFlush (after C (OSend []) (w_a w))) with (c_out (after C (OSend []) (w_a w))) in Z.
    rewrite S7 in Z. apply app_eq_nil in Z. destruct Z as [_ Z]. congruence.
Qed.
