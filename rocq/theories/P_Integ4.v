(* Integrity against an active attacker: the two sides together. *)
From Verif Require Import Base P_Base Iana Crypto Config Serial Ext Msg Hkdf Cipher Kex Sig Ocsp Transcript Conn
  S_Hist S_Conn S_Send S_Nonce S_Alert S_Auth S_Deliver S_Integrity P_Monad P_Frame P_Rec P_Send P_Nonce P_Pieces P_Alert P_Buf P_Hist P_Wire P_Count P_Integ P_Integ2 P_Integ3.

Lemma subseq_refl A (l : list A) : subseq l l.
Proof. induction l; constructor; assumption. Qed.
Lemma subseq_none A (l : list A) : subseq [] l.
Proof. induction l; constructor; assumption. Qed.
Lemma subseq_app A (a b c d : list A) : subseq a b -> subseq c d -> subseq (a ++ c) (b ++ d).
Proof. intros H K. induction H; cbn [app]; [exact K | constructor; assumption | constructor; assumption]. Qed.
Lemma subseq_firstn A (l : list A) : forall q j j', subseq q (firstn j l) -> (j <= j')%nat -> subseq q (firstn j' l).
Proof.
  intros q j j' H L. replace (firstn j' l) with (firstn j l ++ skipn j (firstn j' l)).
  - rewrite <- (app_nil_r q). apply subseq_app; [exact H | apply subseq_none].
  - replace (firstn j l) with (firstn j (firstn j' l)) by (rewrite firstn_firstn; f_equal; lia). apply firstn_skipn.
Qed.
Lemma subseq_prefix A (l : list A) q j : subseq q (firstn j l) -> subseq q l.
Proof.
  intro H. rewrite <- (firstn_skipn j l), <- (app_nil_r q). apply subseq_app; [exact H | apply subseq_none].
Qed.

(* what a sealed record carries, when it is application data *)
Definition part (s : sealing) : list bytes :=
  match inner_plaintext (se_data s) with
  | Ok (ct, f) => if ct =? CT_APPDATA then [f] else []
  | Err _ => []
  end.
Definition parts (E : list sealing) : list bytes := concat (map part E).
Lemma parts_payload E : concat (parts E) = payload E.
Proof.
  induction E as [|s E IH]; [reflexivity|]. unfold parts, payload in *. cbn [map concat]. rewrite concat_app, IH. f_equal.
  unfold part, payload1. destruct (inner_plaintext _) as [[ct f]|]; [|reflexivity]. destruct (ct =? CT_APPDATA); [apply app_nil_r | reflexivity].
Qed.
Lemma parts_subseq q E : subseq q E -> subseq (parts q) (parts E).
Proof.
  induction 1 as [|s l m H IH|s l m H IH]; [constructor| |]; unfold parts in *; cbn [map concat].
  - apply (subseq_app _ [] (part s)); [apply subseq_none | exact IH].
  - apply subseq_app; [apply subseq_refl | exact IH].
Qed.
Lemma chain_carried suite : forall E d, chain suite d E -> carried E (parts E).
Proof.
  induction E as [|s E IH]; intros d H; [constructor|].
  destruct H as (_ & _ & _ & _ & _ & (ct & f & L & Z & Wr) & H). specialize (IH _ H).
  assert (I : inner_plaintext (se_data s) = Ok (ct, f)).
  { destruct Wr as (n & ->). rewrite inner_wraps; [rewrite bN_Nb by exact L; reflexivity|].
    intro K. apply Z. rewrite <- (bN_Nb ct L), K. reflexivity. }
  unfold parts. cbn [map concat]. unfold part at 1. rewrite I. destruct (ct =? CT_APPDATA) eqn:Ec; cbn [app].
  - apply N.eqb_eq in Ec. subst ct. constructor; assumption.
  - apply N.eqb_neq in Ec. eapply carried_other; eassumption.
Qed.

Section Splice.
Variable C : crypto.
Variables (suite : N) (d0 : dir) (k : bytes) (iv : N) (q : seq) (E L0 : list sealing).
Hypothesis Hiv : d_iv d0 = Some iv.
Hypothesis Hq : d_seq d0 = Some q.
Hypothesis Ch : chain suite d0 E.
Hypothesis Old : forall s, In s L0 -> se_key s = k ->
  exists n, n < q_next q /\ N.lxor iv n < 256 ^ 12 /\ se_nonce s = be_bytes 12 (N.lxor iv n).
Hypothesis Au : authentic C suite k (rev E ++ L0).

Definition Q2 (A0 : bytes) (j : nat) (V : bytes) : Prop := exists l, subseq l (firstn j E) /\ V = A0 ++ payload l.
Definition spliceI (A0 V : bytes) : conn -> Prop := readsQ suite k iv q (Q2 A0) V.
Lemma splice_same A0 V c c' : c_cipher c' = c_cipher c -> spliceI A0 V c -> spliceI A0 V c'.
Proof. apply readsQ_same. Qed.
Lemma splice_content A0 V c r c' : spliceI A0 V c -> read_next_content C c = (Ok r, c') -> spliceI A0 (V ++ more r) c'.
Proof.
  apply (content_readsQ C suite d0 k iv q E L0 Hiv Hq Ch Old Au). intros j W s (l & L1 & ->) K.
  exists (l ++ [s]). split.
  - rewrite (firstn_next _ E j s K). apply subseq_app; [exact L1 | apply subseq_refl].
  - rewrite payload_app, app_assoc. unfold payload at 3. cbn [map concat]. rewrite app_nil_r. reflexivity.
Qed.
Lemma splice_reading A0 V c c' : reading c c' -> spliceI A0 V c -> spliceI A0 V c'.
Proof.
  intros [_ O] (j & y & Ey & (A & B & D & F) & (l & L1 & L2)). rewrite Ey in O.
  destruct (c_cipher c') as [y'|] eqn:E'; [|contradiction]. cbn [olift] in O. destruct O as [O1 (O2 & O3 & O4 & O5)].
  rewrite F in O5. destruct (d_seq (cs_r y')) as [q'|] eqn:Eq; [|contradiction]. cbn [seq_le q_next q_limit] in O5.
  exists (j + N.to_nat (q_next q' - (q_next q + N.of_nat j)))%nat, y'. split; [exact E'|]. split.
  - split; [rewrite O1; exact A|]. split; [congruence|]. split; [congruence|]. rewrite Eq. destruct q' as [n lim]. cbn [q_next q_limit] in *. f_equal.
    destruct O5 as [O5 O6]. f_equal; [lia | lia || congruence].
  - exists l. split; [eapply subseq_firstn; [exact L1 | lia] | exact L2].
Qed.
Lemma splice_sending A0 V c c' : sending c c' -> spliceI A0 V c -> spliceI A0 V c'.
Proof.
  intros (_ & O & _) (j & y & Ey & (A & B & D & F) & P). rewrite Ey in O. destruct (c_cipher c') as [y'|] eqn:E'; [|contradiction].
  cbn [olift] in O. destruct O as [O _]. exists j, y'. split; [exact E'|]. split; [|exact P]. rewrite O. repeat split; assumption.
Qed.

Definition tookI (A0 got : bytes) (c : conn) : Prop := spliceI A0 (got ++ c_app c) c /\ is_post_handshake c = true.
Lemma handle_post ct d c : is_post_handshake c = true ->
  is_post_handshake (snd (handle_content C ct d c)) = true /\ c_cipher (snd (handle_content C ct d c)) = c_cipher c.
Proof.
  intro O. pose (P := fun c1 : conn => is_post_handshake c1 = true /\ c_cipher c1 = c_cipher c).
  assert (K : keeps P (handle_content C ct d)); [|apply K; split; [exact O | reflexivity]].
  clear O. unfold P. generalize (c_cipher c). clear c P. intro o.
  set (P := fun c1 : conn => is_post_handshake c1 = true /\ c_cipher c1 = o).
  apply of_rel. pose proof (impl_preorder P) as Q. unfold handle_content. reli Q.
  - unfold transcribe. reli Q; [apply rel_on_tr | apply rel_modify]; intros x H; exact H.
  - assert (B : forall k, rel (fun c c' => P c -> P c') (base_process k)).
    { intro k0. unfold base_process. reli Q. apply rel_modify. intros x (_ & H). split; [reflexivity | exact H]. }
    intros c1 H. pose proof H as (H1 & H2). unfold process. rewrite bind_get. unfold is_post_handshake in H1.
    destruct (c_state c1) eqn:Ec; try discriminate H1.
    + match goal with |- context [match ?k with KCcs => _ | _ => _ end] => destruct k end; try (apply B; exact H). unfold modify. cbn [snd]. exact H.
    + destruct can_recv; [|exact H].
      match goal with |- context [match ?k with KCcs => _ | _ => _ end] => destruct k end; try (apply B; exact H). unfold modify. cbn [snd]. exact H.
    + exact H.
Qed.
Lemma took_fail A0 got a : keeps (tookI A0 got) (fail C a).
Proof.
  intros c (S & P). unfold fail.
  assert (K : tookI A0 got (snd ((match a with Some code => send_content C (KAlert FATAL code) | None => ret tt end) c))).
  { destruct a as [code|]; [|split; assumption]. pose proof (sending_content C (KAlert FATAL code) c) as Sn.
    split; [|unfold is_post_handshake; rewrite send_state; exact P].
    replace (c_app (snd (send_content C (KAlert FATAL code) c))) with (c_app c) by (destruct Sn as (-> & _); reflexivity).
    eapply splice_sending; [exact Sn | exact S]. }
  unfold bind. destruct (match a with Some code => send_content C (KAlert FATAL code) | None => ret tt end c) as [[[]|e] c1]; cbn [snd] in K; [|exact K].
  destruct K as [K _]. split; [eapply splice_same; [|exact K]; reflexivity | reflexivity].
Qed.
Lemma took_one A0 got : keeps (tookI A0 got) (receive_one C).
Proof.
  intros c (S & P). unfold receive_one, bind.
  pose proof (reading_content C c) as Rd. destruct (read_next_content C c) as [rc c1] eqn:E1. cbn [snd] in Rd.
  pose proof (read_content_app C c rc c1 E1) as Ap. pose proof (reading_state _ _ Rd) as St.
  assert (K : tookI A0 got c1).
  { split; [rewrite Ap; eapply splice_reading; eassumption | unfold is_post_handshake; rewrite St; exact P]. }
  destruct rc as [[[ct d]|]|e]; [|exact K|exact K].
  pose proof (splice_content A0 _ c _ c1 S E1) as S1. destruct K as [K P1].
  pose proof (handle_app C ct d c1) as Ha. destruct (handle_post ct d c1 P1) as (H1 & H2).
  assert (G : tookI A0 got (snd (handle_content C ct d c1))).
  { split; [|exact H1]. eapply splice_same; [exact H2|]. rewrite Ha. unfold delivered.
    destruct (established (c_state c1)); cbn [andb].
    - rewrite Ap, app_assoc. exact S1.
    - rewrite app_nil_r. exact K. }
  destruct (handle_content C ct d c1) as [[[]|e] c2]; exact G.
Qed.
Lemma took_guarded A0 got : keeps (tookI A0 got) (guarded C (receive_one C)).
Proof.
  intros c H. pose proof (took_one A0 got c H) as One. unfold guarded. destruct (receive_one C c) as [[b|e] c1]; [exact One|]. cbn [snd] in One.
  pose proof (took_fail A0 got (Some match alert_of e with Some code => code | None => INTERNAL_ERROR end) c1 One) as K.
  destruct (fail _ _ c1) as [[]]; exact K.
Qed.
Lemma took_receive A0 got d : keeps (tookI A0 got) (receive_data C d).
Proof.
  pose proof (impl_preorder (tookI A0 got)) as P.
  assert (L : forall n, rel (fun c c' => tookI A0 got c -> tookI A0 got c') (receive_loop n C)).
  { induction n; cbn [receive_loop]; reli P; try (apply to_rel; apply took_guarded); apply IHn. }
  apply of_rel. unfold receive_data, rekey. reli P; [|apply L].
  apply rel_modify. intros c1 (S & Po). split; [|exact Po]. eapply splice_same; [|exact S]. reflexivity.
Qed.
Lemma took_state A0 got s : (match s with Connected | Closed _ _ | Failed => true | _ => false end = true) -> keeps (tookI A0 got) (set_state s).
Proof. intros Hs c (S & P). split; [eapply splice_same; [|exact S]; reflexivity | exact Hs]. Qed.
Lemma took_send A0 got kk : keeps (tookI A0 got) (send_content C kk).
Proof.
  intros c (S & P). pose proof (sending_content C kk c) as Sn.
  split; [|unfold is_post_handshake; rewrite send_state; exact P].
  replace (c_app (snd (send_content C kk c))) with (c_app c) by (destruct Sn as (-> & _); reflexivity).
  eapply splice_sending; [exact Sn | exact S].
Qed.
Lemma took_step A0 got o c : tookI A0 got c -> tookI A0 (got ++ op_reads C o c) (after C o c).
Proof.
  intros H. unfold after, step, op_reads. pose proof H as (S & Po).
  destruct o; try rewrite snd_ret; try rewrite app_nil_r.
  - unfold initiate_connection. rewrite bind_get. unfold is_post_handshake in Po. destruct (c_state c); try discriminate; exact H.
  - apply took_receive. exact H.
  - apply took_send. exact H.
  - unfold returned, step, data_to_read. rewrite bind_get, bind_modify. cbn [ret fst snd]. split; [|exact Po].
    cbn [c_app cset_app]. rewrite app_nil_r. eapply splice_same; [|exact S]. reflexivity.
  - unfold data_to_send. rewrite bind_get, bind_modify. cbn [ret snd]. split; [eapply splice_same; [|exact S]; reflexivity | exact Po].
  - unfold rekey. rewrite bind_get. destruct (negb _); exact H.
  - unfold close_receiving_end. rewrite bind_get, Po. cbn [negb]. destruct (c_state c); apply took_state; try reflexivity; exact H.
  - unfold close_sending_end. rewrite bind_get.
    pose proof (impl_preorder (tookI A0 got)) as P. revert H.
    match goal with |- tookI A0 got c -> tookI A0 got (snd (?m c)) => cut (keeps (tookI A0 got) m); [intros K; apply K|] end.
    clear - P. apply of_rel. reli P; try (apply to_rel; apply took_state; reflexivity); try (apply to_rel; apply took_send).
    apply rel_modify. intros c1 (S & Po). unfold is_post_handshake in Po.
    destruct (c_state c1) eqn:Ec; try (split; [exact S | unfold is_post_handshake; rewrite Ec; exact Po]).
    split; [eapply splice_same; [|exact S]; reflexivity | reflexivity].
Qed.
Lemma took_run A0 : forall ops got c, tookI A0 got c -> tookI A0 (got ++ readout C ops c) (run C ops c).
Proof.
  induction ops as [|o ops IH]; intros got c H; cbn [run readout]; [rewrite app_nil_r; exact H|].
  rewrite app_assoc. apply IH. apply (took_step A0 got o c H).
Qed.
End Splice.

(* what the hypotheses on the two endpoints give *)
Lemma keyed_setup C g a b : aead_sized C -> reachable C g a -> keyed a b -> room a -> fresh_key a ->
  exists x y k iv q, c_cipher a = Some x /\ c_cipher b = Some y /\ cs_suite y = cs_suite x /\ wired x /\
    d_key (cs_w x) = Some k /\ d_iv (cs_w x) = Some iv /\ d_seq (cs_w x) = Some q /\
    d_key (cs_r y) = Some k /\ d_iv (cs_r y) = Some iv /\ d_seq (cs_r y) = Some q /\
    iv < 256 ^ 12 /\ q_limit q <= 2 ^ 64 /\ usage_limit (cs_suite x) <> None /\
    (forall s, In s (c_log a) -> se_key s = k ->
      exists n, n < q_next q /\ N.lxor iv n < 256 ^ 12 /\ se_nonce s = be_bytes 12 (N.lxor iv n)).
Proof.
  intros As R (x & y & k & Ex & Ey & Es & K1 & K2 & K3 & K4) Rm Fr.
  pose proof (reachable_count C g a R) as (Iv & Nn & _).
  assert (En : enc_on a = true) by (unfold enc_on, must_encrypt; rewrite Ex, K1; reflexivity).
  destruct (Rm x Ex En) as (lim & Il & _). apply limit_table_usage in Il.
  unfold ivI in Iv. rewrite Ex in Iv. destruct Iv as [Iv _]. unfold dir_ok in Iv. rewrite K1 in Iv.
  destruct Iv as (iv & E1 & L1 & Q). destruct (Q lim Il) as (q & E2 & E3).
  assert (Lq : q_limit q <= 2 ^ 64).
  { rewrite E3. unfold usage_limit in Il. destruct (_ || _); [injection Il; intros <-; discriminate|].
    destruct (_ =? _); [injection Il; intros <-; discriminate | discriminate]. }
  exists x, y, k, iv, q. split; [exact Ex|]. split; [exact Ey|]. split; [congruence|].
  split; [exists k, iv, q; auto|]. split; [exact K1|]. split; [exact E1|]. split; [exact E2|].
  split; [exact K2|]. split; [congruence|]. split; [congruence|]. split; [exact L1|]. split; [exact Lq|].
  split; [congruence|].
  intros s Hs Ks. destruct Nn as (_ & _ & Nn). rewrite Ex, K1, E1, E2 in Nn.
  destruct Nn as (lim' & _ & _ & _ & (ks & Bl & F2)).
  assert (Ep : se_epoch s = epoch_w a). { unfold epoch_w. rewrite Ex. apply (Fr x s Ex Hs). rewrite K1, Ks. reflexivity. }
  assert (Hu : In s (under (epoch_w a) (c_log a))). { unfold under. apply filter_In. split; [exact Hs | apply N.eqb_eq; exact Ep]. }
  assert (exists n, In n ks /\ made (cs_suite x) k iv n s) as (n & N1 & (_ & _ & N2 & N3)).
  { clear - F2 Hu. induction F2 as [|n t ks l M F IH]; [destruct Hu|]. destruct Hu as [->|Hu]; [exists n; split; [left; reflexivity | exact M]|].
    destruct (IH Hu) as (n' & A & B). exists n'. split; [right; exact A | exact B]. }
  exists n. split; [eapply below_in; eassumption|]. auto.
Qed.
Lemma est_post c : established (c_state c) = true -> is_post_handshake c = true.
Proof. unfold established, is_post_handshake. destruct (c_state c); try discriminate; reflexivity. Qed.
Lemma reachable_side C g c : reachable C g c -> side_ok c.
Proof.
  intro R. split; [|eapply reachable_count; exact R]. destruct R as (c0 & ops & Z & ->). apply mfl_good_run. eapply created_mfl. exact Z.
Qed.

Lemma splice C ga gb a b opsA opsB : aead_sized C -> reachable C ga a -> reachable C gb b -> keyed a b -> room a ->
  established (c_state a) = true -> established (c_state b) = true ->
  unforgeable C a (c_log (run C opsA a)) ->
  exists E ps qs, c_log (run C opsA a) = rev E ++ c_log a /\ carried E ps /\ prefix (concat ps) (written C opsA a) /\
    subseq qs ps /\ readout C opsB b ++ c_app (run C opsB b) = c_app b ++ concat qs.
Proof.
  intros As Ra Rb K Rm Sa Sb (Fr & Un).
  destruct (keyed_setup C ga a b As Ra K Rm Fr) as (x & y & k & iv & q & Ex & Ey & Es & W & K1 & K2 & K3 & K4 & K5 & K6 & L1 & L2 & Us & Old).
  destruct (sealed_after C opsA a x As (proj1 (reachable_side C ga a Ra)) (est_post a Sa) Ex W) as (E & E1 & E2 & E3).
  specialize (Un x k Ex K1). rewrite E1 in Un.
  assert (T : tookI (cs_suite x) k iv q E (c_app b) [] b).
  { split; [|apply est_post; exact Sb]. exists O, y. split; [exact Ey|]. split; [|exists []; split; [constructor | cbn; rewrite app_nil_r; reflexivity]].
    split; [exact Es|]. split; [exact K4|]. split; [exact K5|]. rewrite K6. destruct q. cbn. rewrite N.add_0_r. reflexivity. }
  apply (took_run C (cs_suite x) (cs_w x) k iv q E (c_log a) K2 K3 E2 Old Un (c_app b) opsB [] b) in T.
  destruct T as ((j & z & _ & _ & (l & S1 & S2)) & _).
  exists E, (parts E), (parts l). split; [exact E1|]. split; [eapply chain_carried; exact E2|].
  split; [rewrite parts_payload; exact E3|].
  split; [apply parts_subseq; eapply subseq_prefix; exact S1|]. rewrite parts_payload. exact S2.
Qed.
Lemma integrity C ga gb a b opsA opsB : aead_sized C -> reachable C ga a -> reachable C gb b -> keyed a b -> room a ->
  established (c_state a) = true -> established (c_state b) = true -> can_send (c_state b) = true -> c_app b = [] ->
  unforgeable C a (c_log (run C opsA a)) -> ~ In OCloseS opsB -> few (run C opsB b) ->
  prefix (readout C opsB b) (written C opsA a).
Proof.
  intros As Ra Rb K Rm Sa Sb Cs Ab (Fr & Un) No F.
  destruct (keyed_setup C ga a b As Ra K Rm Fr) as (x & y & k & iv & q & Ex & Ey & Es & W & K1 & K2 & K3 & K4 & K5 & K6 & L1 & L2 & Us & Old).
  destruct (sealed_after C opsA a x As (proj1 (reachable_side C ga a Ra)) (est_post a Sa) Ex W) as (E & E1 & E2 & E3).
  specialize (Un x k Ex K1). rewrite E1 in Un.
  assert (T : readI (cs_suite x) k iv q E [] b).
  { left. split; [|unfold open; rewrite Sb, Cs; reflexivity]. exists O, y. split; [exact Ey|]. split; [|unfold Q1; rewrite Ab; reflexivity].
    split; [exact Es|]. split; [exact K4|]. split; [exact K5|]. rewrite K6. destruct q. cbn. rewrite N.add_0_r. reflexivity. }
  pose proof (read_run C As (cs_suite x) (cs_w x) k iv q E (c_log a) K2 K3 E2 Old Un Us opsB [] b No (reachable_side C gb b Rb) T F) as T1.
  apply read_prefix in T1. cbn [app] in T1. destruct T1 as (u & T1). destruct E3 as (v & E3). exists (u ++ v). rewrite E3, T1, app_assoc. reflexivity.
Qed.
