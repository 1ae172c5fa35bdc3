(* C56 *)
From Verif Require Import Base P_Base Iana Crypto Config Cipher Conn Wrapper S_Hist S_Conn S_Send S_Nonce S_Alert S_Deliver S_Net S_Split S_Chat
  P_Monad P_Rec P_Send P_Hist P_Split P_Deliver.

Section chat.
Variable C : crypto.
Hypothesis AC : aead_correct C.

Lemma receive_data_end a b p rest sent got : p <> [] -> flow C a b (p ++ rest) sent got ->
  fst (receive_data C p b) = rekeying (after C (ORecv p) b).
Proof.
  intros Hp (xa & yb & x & ds & n & F1 & F2 & F3 & F4 & F5 & F6 & F7 & F8 & F9 & F10 & F11 & F12 & F13).
  destruct (loop_stream C (max_frag a) (max_frag a) AC ds x yb (cset_in (c_in b ++ p) b) (rest ++ c_out a)) as (ds1 & ds2 & i & E1 & E2 & _).
  { destruct F5 as (A & B & _ & D & E). repeat split; auto. }
  { exact F6. } { exact F4. } { exact F10. } { cbn [c_in cset_in]. rewrite <- F11, <- !app_assoc. reflexivity. }
  assert (Hr : can_receive (c_state b) = true).
  { destruct F5 as (A & _). destruct (c_state b) as [ | | | | | | | | | | |r w| ]; try discriminate; try reflexivity.
    destruct r; [reflexivity|discriminate]. }
  pose proof (receive_loops C p b _ Hp Hr E2) as R.
  unfold after, step, bind. rewrite R. cbn [finish fst snd].
  destruct (rekeying _) as [[]|e] eqn:Z; cbn [ret snd]; rewrite Z; reflexivity.
Qed.
Lemma rekeying_worn c e : rekeying c = Err e -> worn c /\ e <> XFuel.
Proof.
  unfold rekeying, worn, should_rekey, seq_peek. destruct (c_cipher c) as [x|]; [|discriminate].
  destruct (d_seq (cs_w x)) as [q|] eqn:Eq; [|discriminate]. destruct (q_next q <? q_limit q) eqn:El; cbn [rbind].
  - intro H. split.
    + exists x, q. split; [reflexivity|]. split; [exact Eq|]. right. intros lim I. apply P_Alert.limit_table_usage in I. rewrite I in H.
      destruct (lim - REKEY_THRESHOLD <=? q_next q) eqn:E2; [|discriminate]. apply N.leb_le in E2. unfold REKEY_THRESHOLD in E2. lia.
    + destruct (usage_limit (cs_suite x)) as [lim|]; [|congruence]. destruct (_ <=? _); [|discriminate]. destruct (can_send _); congruence.
  - intro H. split; [|congruence]. exists x, q. apply N.ltb_ge in El. auto.
Qed.

(* b' is b but for what it has read *)
Definition heard (b b' : conn) : Prop :=
  c_state b' = c_state b /\ c_out b' = c_out b /\
  forall a net sent got, flow C b a net sent got -> flow C b' a net sent got.
Lemma heard_refl b : heard b b. Proof. repeat split; auto. Qed.
Lemma heard_trans b1 b2 b3 : heard b1 b2 -> heard b2 b3 -> heard b1 b3.
Proof. intros (A1 & A2 & A3) (B1 & B2 & B3). split; [congruence|]. split; [congruence|]. auto. Qed.
Lemma heard_read b : heard b (cset_app [] b).
Proof. split; [reflexivity|]. split; [reflexivity|]. intros. apply flow_other_read. assumption. Qed.
Lemma heard_deliver a b p rest sent got : p <> [] -> flow C a b (p ++ rest) sent got ->
  flow C a (after C (ORecv p) b) rest sent got /\ heard b (after C (ORecv p) b).
Proof.
  intros Hp F. destruct (flow_deliver C AC _ _ _ _ _ _ Hp F) as (G & y & G1 & n & i & z & G2). split; [exact G|].
  rewrite G2. split; [reflexivity|]. split; [reflexivity|]. intros a0 net s0 g0 H. apply flow_other_deliver; assumption.
Qed.
Lemma turn_flow a b p rest sent got l s0 : p <> [] -> flow C a b (p ++ rest) sent got -> c_out b = [] ->
  turn C p (b, mkSock l [] s0) = (rekeying (after C (ORecv p) b), (after C (ORecv p) b, mkSock l [] s0)).
Proof.
  intros Hp F O. pose proof (receive_data_end a b p rest sent got Hp F) as R.
  destruct (heard_deliver a b p rest sent got Hp F) as [_ (_ & H2 & _)]. rewrite O in H2.
  assert (Ea : after C (ORecv p) b = snd (receive_data C p b)).
  { unfold after, step, bind. destruct (receive_data C p b) as [[]]; reflexivity. }
  set (b1 := after C (ORecv p) b) in *. clearbody b1.
  unfold turn, wfinally, on_conn. cbn [fst snd]. destruct (receive_data C p b) as [r c]. cbn [fst snd] in *. subst c r.
  unfold flush, wbind, on_conn, data_to_send, bind, get, modify, ret. cbn [fst snd]. rewrite H2. cbn [is_nil].
  unfold wret. f_equal. f_equal. destruct b1; cbn in *; subst; reflexivity.
Qed.

Definition outcome (r : res bytes) (ds' : list bytes) (b' : conn) : Prop :=
  (exists d, r = Ok d /\ d <> []) \/ (r = Err XFuel /\ ds' = [] /\ c_app b' = []) \/ (exists e, r = Err e /\ e <> XFuel /\ worn b').
Lemma read_loop_flow a rest sent s0 : forall ds n b got r b' k', (length ds < n)%nat -> (forall p, In p ds -> p <> []) ->
  flow C a b (concat ds ++ rest) sent got -> established (c_state b) = true -> c_out b = [] -> c_app b = [] ->
  read_loop n C [] (b, mkSock (map Ok ds) [] s0) = (r, (b', k')) ->
  exists ds', k' = mkSock (map Ok ds') [] s0 /\ flow C a b' (concat ds' ++ rest) sent (got ++ read_of r) /\ heard b b' /\ outcome r ds' b'.
Proof.
  induction ds as [|p ds IH]; intros n b got r b' k' L Ne F Es O Ap H; (destruct n as [|n]; [cbn in L; lia|]).
  all: assert (Ec : is_connected b = true) by (unfold is_connected, established in *; destruct (c_state b) as [ | | | | | | | | | | |[] w| ]; try discriminate; auto).
  all: cbn [read_loop fst] in H; rewrite Ec in H; cbn [andb is_nil] in H.
  - cbn in H. injection H; intros <- <- <-. exists []. split; [reflexivity|]. cbn [read_of]. rewrite app_nil_r. split; [exact F|].
    split; [apply heard_refl|]. right. left. auto.
  - assert (Hp : p <> []) by (apply Ne; left; reflexivity).
    unfold wbind at 1, sock_recv in H. cbn [map sk_recv snd fst sk_accept sk_sent] in H.
    replace (is_nil p) with false in H by (destruct p; [congruence | reflexivity]).
    cbn [concat] in F. rewrite <- app_assoc in F. unfold wbind at 1 in H. rewrite (turn_flow a b p _ sent got _ _ Hp F O) in H.
    destruct (heard_deliver a b p _ sent got Hp F) as [F1 Hd]. set (b1 := after C (ORecv p) b) in *. clearbody b1.
    destruct (rekeying b1) as [[]|e] eqn:Rk.
    2:{ injection H; intros <- <- <-. exists ds. split; [reflexivity|]. cbn [read_of]. rewrite app_nil_r. split; [exact F1|].
        split; [exact Hd|]. right. right. destruct (rekeying_worn _ _ Rk). eauto. }
    change (wbind (on_conn data_to_read) ?f (b1, ?k)) with (f (c_app b1) (cset_app [] b1, k)) in H. cbv beta in H. cbn [app] in H.
    assert (Hd2 : heard b (cset_app [] b1)) by (eapply heard_trans; [exact Hd | apply heard_read]).
    apply flow_read in F1. destruct (c_app b1) as [|x l] eqn:Ea.
    + rewrite app_nil_r in F1. apply IH with (got := got) in H; [|cbn in L; lia | intros; apply Ne; right; assumption | exact F1 | | | reflexivity].
      * destruct H as (ds' & X1 & X2 & X3 & X4). exists ds'. split; [exact X1|]. split; [exact X2|]. split; [|exact X4]. eapply heard_trans; eassumption.
      * destruct Hd2 as (-> & _). exact Es.
      * destruct Hd2 as (_ & -> & _). exact O.
    + assert (E : read_loop n C (x :: l) (cset_app [] b1, mkSock (map Ok ds) [] s0) = (Ok (x :: l), (cset_app [] b1, mkSock (map Ok ds) [] s0))).
      { destruct n; cbn [read_loop is_nil]; rewrite andb_false_r; reflexivity. }
      rewrite E in H. injection H; intros <- <- <-. exists ds. split; [reflexivity|]. split; [exact F1|]. split; [exact Hd2|].
      left. exists (x :: l). split; [reflexivity | discriminate].
Qed.
Lemma wread_flow a b ds rest sent got s0 r b' k' : (forall p, In p ds -> p <> []) ->
  flow C a b (concat ds ++ rest) sent got -> established (c_state b) = true -> c_out b = [] ->
  wread C (b, mkSock (map Ok ds) [] s0) = (r, (b', k')) ->
  exists ds', k' = mkSock (map Ok ds') [] s0 /\ flow C a b' (concat ds' ++ rest) sent (got ++ read_of r) /\ heard b b' /\ outcome r ds' b'.
Proof.
  intros Ne F Es O H. unfold wread in H.
  change (wbind (on_conn data_to_read) ?f (b, ?k)) with (f (c_app b) (cset_app [] b, k)) in H. cbv beta in H. cbn [snd sk_recv] in H.
  apply flow_read in F. destruct (c_app b) as [|x l] eqn:Ea.
  - rewrite app_nil_r in F. eapply read_loop_flow in H; [| rewrite map_length; lia | exact Ne | exact F | exact Es | exact O | reflexivity].
    destruct H as (ds' & X1 & X2 & X3 & X4). exists ds'. split; [exact X1|]. split; [exact X2|]. split; [|exact X4].
    eapply heard_trans; [apply heard_read | exact X3].
  - cbn [read_loop is_nil] in H. rewrite andb_false_r in H. injection H; intros <- <- <-. exists ds. split; [reflexivity|].
    split; [exact F|]. split; [apply heard_read|]. left. exists (x :: l). split; [reflexivity | discriminate].
Qed.
Lemma pending_map ds : pending (map Ok ds) = concat ds.
Proof. induction ds as [|p ds IH]; [reflexivity|]. cbn. rewrite IH. reflexivity. Qed.

Definition talking (w : world) : Prop := flows C w /\ c_out (w_a w) = [] /\ c_out (w_b w) = [] /\
  established (c_state (w_a w)) = true /\ established (c_state (w_b w)) = true.
Lemma talking_step w w' : chat_step C w w' -> talking w -> talking w' /\ states w' = states w.
Proof.
  induction 1 as [w d a' k S H | w ds rest r b' k E Ne H | w w' M IH]; intros ([A B] & O1 & O2 & S1 & S2).
  - unfold wwrite in H. unfold wbind at 1, on_conn at 1 in H. cbn [fst snd] in H.
    assert (R : fst (step C (OSend d) (w_a w)) = Ok [] /\ snd (send_data C d (w_a w)) = after C (OSend d) (w_a w)).
    { unfold after, step, bind. destruct (send_data C d (w_a w)) as [[[]|e] a1]; [split; reflexivity | discriminate H]. }
    destruct R as [R R2]. destruct (flow_send C _ _ _ _ _ _ A S R) as (F & G1 & G2 & G3 & G4 & G5 & y & G6 & G7).
    destruct (send_data C d (w_a w)) as [[[]|e] a1]; [|discriminate H]. cbn [snd] in R2. subst a1.
    set (a1 := after C (OSend d) (w_a w)) in *. clearbody a1.
    unfold wbind, on_conn, sock_send in H. cbn in H. injection H; intros <- <-. cbn [sk_sent].
    split; [|unfold states; cbn [w_a w_b c_state cset_out]; congruence].
    split; [split; cbn [w_a w_b w_ab w_ba w_sent_a w_sent_b w_got_a w_got_b]|cbn [w_a w_b c_state cset_out c_out]; rewrite G1; auto].
    + apply flow_flush. exact F.
    + apply flow_other_flush. apply (flow_other_send C (w_a w) (w_b w) _ _ _ _ y B); assumption.
  - rewrite E in A. eapply wread_flow in H; [| exact Ne | exact A | exact S2 | exact O2].
    destruct H as (ds' & -> & F & (H1 & H2 & H3) & _). cbn [sk_recv sk_sent]. rewrite pending_map, app_nil_r.
    split; [|unfold states; cbn [w_a w_b]; congruence].
    split; [split; cbn [w_a w_b w_ab w_ba w_sent_a w_sent_b w_got_a w_got_b]|cbn [w_a w_b]; rewrite H1, H2; auto].
    + exact F.
    + apply H3. exact B.
  - destruct IH as [([I1 I2] & I3 & I4 & I5 & I6) I7]; [repeat split; assumption|]. split.
    + repeat split; assumption.
    + unfold states, swap in *. cbn [w_a w_b] in *. congruence.
Qed.
Lemma chat_talking w w' : linked w -> chat C w w' -> talking w' /\ states w' = states w.
Proof.
  intros L T.
  assert (F : talking w).
  { destruct (flows_traffic C AC w w L (tf_none _ w)) as [Fl _]. destruct L as (A & B & _).
    destruct A as (_ & _ & _ & A1 & A2 & _), B as (_ & _ & _ & B1 & B2 & _). split; [exact Fl|]. auto. }
  clear L. induction T as [w | w w1 w2 T IH M]; [auto|].
  destruct (IH F) as [G H]. destruct (talking_step _ _ M G) as [G' H']. split; [exact G' | congruence].
Qed.
Lemma chat_prefix w w' : linked w -> chat C w w' ->
  prefix (w_got_b w') (w_sent_a w') /\ prefix (w_got_a w') (w_sent_b w') /\
  c_state (w_a w') = c_state (w_a w) /\ c_state (w_b w') = c_state (w_b w).
Proof.
  intros L T. destruct (chat_talking _ _ L T) as [((A & B) & _) S]. unfold states in S. injection S as S1 S2.
  destruct (flow_prefix C _ _ _ _ _ A) as [r1 E1]. destruct (flow_prefix C _ _ _ _ _ B) as [r2 E2]. rewrite <- app_assoc in E1, E2.
  split; [exists (c_app (w_b w') ++ r1); exact E1|]. split; [exists (c_app (w_a w') ++ r2); exact E2|]. auto.
Qed.
Lemma chat_read w w' ds rest r b' k : linked w -> chat C w w' ->
  w_ab w' = concat ds ++ rest -> (forall p, In p ds -> p <> []) -> wread C (w_b w', mkSock (map Ok ds) [] []) = (r, (b', k)) ->
  (exists d, r = Ok d /\ d <> []) \/
  (r = Err XFuel /\ sk_recv k = [] /\ (rest = [] -> w_got_b w' = w_sent_a w')) \/
  (exists e, r = Err e /\ worn b').
Proof.
  intros L T E Ne H. destruct (chat_talking _ _ L T) as [((A & B) & O1 & O2 & S1 & S2) _]. rewrite E in A.
  eapply wread_flow in H; [| exact Ne | exact A | exact S2 | exact O2].
  destruct H as (ds' & -> & F & _ & [Oc|[(-> & -> & Ap)|(e & -> & _ & Oc)]]); [left; exact Oc | right; left | right; right; eauto].
  split; [reflexivity|]. split; [reflexivity|]. intros ->. cbn [concat app read_of] in F. rewrite app_nil_r in F.
  destruct (flow_all C _ _ _ _ F O1) as (X & _). rewrite Ap, app_nil_r in X. exact X.
Qed.
End chat.

Lemma write_works C g a d k : aead_sized C -> reachable C g a -> room a -> enc_on a = true ->
  can_send_app (c_state a) = true -> short a d -> exists a' k', wwrite C d (a, k) = (Ok tt, (a', k')).
Proof.
  intros As R Rm En Cs S. pose proof (send_works C g a d As R Rm En Cs S) as H. unfold step, bind in H.
  unfold wwrite, wbind, on_conn, sock_send. cbn [fst snd]. destruct (send_data C d a) as [[[]|e] a1]; [|discriminate H].
  cbn. destruct (sk_accept k); eauto.
Qed.
